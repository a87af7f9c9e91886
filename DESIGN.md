# Design of the formal model of gcodeutils

The code under study is the Python package `gcodeutils` in `/repo`. It is read
as text only. The model is a set of Coq 8.16.1 (Rocq) files under
`rocq/theories`, logical name `Verif`.

## 1. Modelling decisions

**Functions.** Each Python function becomes a total, computable Gallina
function that follows it branch by branch. Its comment cites the file and the
lines. Mutation becomes a returned value. A Python exception becomes a value
`Err e` of the type `res`. A `while` loop without an obvious bound gets an
explicit fuel argument and yields `Err OutOfFuel` when the fuel runs out; no
theorem treats that value as a normal result.

**Numbers.** The code computes with IEEE doubles. The model is written once
over a record `arith` of number operations (`Arith.v`). This gives four kinds
of theorem:

1. *structural*: `forall A : arith` — no arithmetic law is used, so the
   theorem holds for doubles too;
2. *numeric*: `forall A, exact A -> …` — `exact A` says that the operations
   are the real-number ones (instances: rationals `QA`, reals `RA`). These
   theorems are about exact arithmetic; floating-point rounding is outside
   them (but see 3). Where a bound survives rounding it is proved for every arithmetic
   with monotone operations and this is said;
3. *binary64*: theorems about the doubles themselves (`Props_Float.v`, `Props_FloatMod.v`,
   `Props_FloatTempcal.v`, `Props_FloatTime.v`): the
   operations of `B64` are shown to be the rounded real ones with Flocq, and
   the error of each step is bounded;
4. *refutations*: a concrete program, evaluated with `vm_compute` in binary64
   (`B64`, stdlib `SpecFloat`, axiom free) or in `QA`.

**Text.** Strings are Coq strings of 8-bit characters. The regular expressions
of the tokenizer are modelled by hand-written scanners, alternative by
alternative. Case conversion and blank stripping cover the ASCII range.
Python 3 semantics are used where Python 2 and 3 differ (`round`, `/`,
`print`, `str`).

**Lines and programs.** A line object is an immutable record (text, command,
is_move, seven optional arguments, the notes written by `_preprocess`). A
program is a record with the line list, the layers, the index tables, the
machine state and the summary values. Sharing of line objects between
`GCode.lines` and the layers is not modelled; `lines` and `layers` are
separate lists and the theorems say how they agree.

**Specifications.** Statements are made against small separate definitions
(`Spec*.v`): the list of cleaned input lines, a reference machine that executes
commands, the running extrusion sums, and so on. They do not call the helper
functions of the model.

**Files.** `PyBase` (Python fragment), `Arith`, `ArithQ`, `ArithR`, `ArithB64`
(numbers), `Gcoder`, `Filters`, `Visit`, `Tempcal`, `Arc`, `Stretch`,
`Vector`, `Files`, `Events`, `Summary` (models), `Spec*` (specifications), `P_*` (lemmas), `Props_*`
(theorems only: each is closed by `exact lemma` and followed by
`Print Assumptions`; beside it an `Example` shows that its hypotheses can be
met).

**Verdicts.** If the code violates a property the model proves `…_refuted`
(a witness), and as much as is true is proved separately with the suffix
`_partial`.

## 2. What is modelled and what is not

Modelled: `gcoder.py` (tokenizer, `split`, `unsplit`, `parse_coordinates`,
`find_specific_code`, the whole of `_preprocess`, `prepare`, `append`,
`prepend_to_layer`, `rewrite_layer`, `idxs`, `write`, `__eq__`, `diff`,
`LightGCode`), `filter/*.py`, `visit/*.py`, `gcode_tempcal.py`,
`stretch/stretch.py`, `stretch/vector3.py`, and the option handling of
`gcode_mod.py`, `gcode_stretch.py`, `gcode_optimize_arcs.py`.

`Files.v` models the order in which the commands and the Cura plug-ins open,
read and write files. `Index.v` models line and layer numbers that count from
the end, `Append.v` commands that are tracked but not stored.

Not modelled: logging, argparse itself (beyond the opening of its files),
permissions, links, encodings, the C line classes
that are commented out, callbacks that change the program, the first two lines of the report of `gcoder.main`, `m114_exp`, exponent
notation in numbers (the tokenizer cannot produce it), infinities and NaN in
exact arithmetic, text outside 8-bit characters, memory limits, the decoding of
the Cura profile string (base64/zlib: an oracle argument).

## 3. Properties

| id | model | method |
|----|-------|--------|
| C01 | `load`, `write` | invariant: written lines so far = cleaned prefix; induction over lines; structural |
| C02 | `load`, `idxs` | invariant: index tables enumerate the layers; structural |
| C03 | `prepend_to_layer` | invariant `consistent` (layers, lines, tables); preserved by the insertion; structural |
| C04 | `rewrite_layer` | same invariant; structural |
| C05 | `append` | text part proved; the index part is refuted (off by one) |
| C06 | `motion_step` fold | fold over concatenation; structural |
| C07 | tokenizer | induction over the scanner |
| C08 | tokenizer, `motion_step` | computation on the first token |
| C09 | tokenizer | `lower` is idempotent, words depend on the lower-cased text only |
| C10 | `load` | total characterisation: which errors exist, no error on well-formed lines; for doubles by the sign bits, infinities included |
| C11 | `load` | refuted by a text line starting with T; text without G, T, M: the letters of the words occur in the text, then a lock-step of the two loads |
| C12 | `motion_step` vs reference machine | refinement, any arithmetic |
| C13 | `motion_step` | refuted; the conditional part proved |
| C14 | `motion_step` | exact arithmetic |
| C15 | `motion_step` | refuted; totals under no G92 E proved (C16) |
| C16 | `motion_step` fold | invariant against running sums, exact arithmetic |
| C17 | `motion_step` fold | last-mode specification, structural |
| C18 | `load` | fold of min/max, exact order |
| C19 | `load` | fold of min/max, exact order |
| C20 | `load` | partition invariant, structural |
| C21 | `load` | exact arithmetic; sign analysis of the acceleration formula; for doubles a range for every intermediate result, refuted for feed rates near the smallest double |
| C22 | `unsplit`, tokenizer, `parse_coordinates` | decimal print/parse round-trip |
| C23 | `unsplit`, reference machine | refuted; for moves in millimetres the text written is read back |
| C24, C25 | `gcode_eqb`, `diff` | refuted; exact description of the accepted pairs |
| C26 | `load_light` | refuted: all LightGCode programs are equal |
| C27 | `parse_gcode` generic filter | flat_map specification; structural |
| C28–C31 | relative-extrusion filter | semantic simulation for programs under stated conditions; refutations otherwise |
| C32–C35 | translate filter | simulation under conditions; refutations otherwise |
| C36 | `accept` | event list specification; structural |
| C37 | `PauseAtLayer` | number of pauses and harmlessness for every program; placement when no printed layer equals an earlier one; refuted otherwise |
| C38 | `PauseAtLayer` | at most one when heights differ (exact order); refuted for lifted heads |
| C39 | `gcode_mod` | exact condition of failure; refuted |
| C40–C43, C47 | tempcal | every run is a chain of injections over the layers; exact values of the targets |
| C44, C45, C46, C48 | tempcal | refuted; the ranges that hold are proved |
| C49, C50 | arc optimizer | the queue and the lines read so far form one replacement of runs; any circle fit, any arithmetic |
| C51 | arc optimizer | what the validity test established of the queue that is replaced, over the reals |
| C52 | arc optimizer | refuted; only two exceptions, none on short rows |
| C53 | arc optimizer | relative mode: alpha/2 over sin(alpha/2) is at least 1; absolute mode: exact amount by telescoping sums, the claim itself refuted |
| C54, C77 | arc optimizer, reference machine | two machines in step along the replacement relation, with the positions noted (C12) and the text of arcs read back; refuted by evaluation outside absolute coordinates |
| C55 | `phase_diff` | real arithmetic |
| C56, C58 | stretch | every stage relates each line to a line with the same words and a text extended by remarks; reparsing is stable |
| C57, C59 | stretch, over the reals and for doubles | the displacement is a clipped vector; its length is at most the limit; rounding lemma of `unsplit`. For doubles: magnitudes bounded by powers of two up to the clip (no overflow, no NaN), then error bounds (P_FloatHypot, P_FloatStretch, P_FloatStretchWhole) |
| C60, C61 | stretch | the tracked feedrate and point follow the loop moves; refuted for values set outside loops |
| C62 | stretch, Slic3r | each iterator passes a loop end or the end of the layer: fuel measure, for Slic3r loops and Cura walls that their marks delimit; for Skeinforge, the length walked grows by the perimeter with each round; refuted by programs of each slicer on which no fuel is enough (a cycle of the iterator) |
| C63 | stretch | exception analysis stage by stage; refuted at the end of layers and with a profile |
| C64 | line iterators | induction over the scan |
| C65, C81 | marks | `SpecLoop`: the loop of every line as a function of the slicer's comments; the marks the filter adds are read back as exactly that; leaks refuted |
| C78 | stretch | refuted by evaluation; nothing is printed for loops that begin and end in one layer: the same induction as C62 |
| C79, C80, C82 | stretch, reference machine | refuted by evaluation |
| C66, C67, C83 | Vector3 | real algebra; refutation with signed zero; Python 3 truth values |
| C84 | `setup_filter` | the grammar of the declarations as texts; the last one wins; remarks declare nothing |
| C85–C90 | `Files`: a file system, a run as a list of operations that can be cut off anywhere | which file every operation touches; what the last contents are; the general failures are proved for every command |
| C91–C93 | reading and writing text files | stripped lines contain no line end; reading back what was written; commands depend on the stripped lines only |
| C94, C95 | arc optimizer, over the reals | polar coordinates of `phase`; one-sided test and first two segments; refuted by evaluation otherwise |
| C96, C97 | stretch filter, over the reals | `SpecBend`: the displacement as a function of points, `reaches` for the walk along the path; proved by following the walk through the model; blunt corners refuted for every program and by evaluation |
| C96 (round), C98, C99 | stretch filter, over the reals | `SpecBend`: `stretches_loop` relates the points of a loop in the marked program to those in the result; `P_StretchRound` follows the iterators round a loop, `P_StretchWhole` concludes the displacement of each point; `stretches_skein`, `P_StretchSkein` for Skeinforge, whose iterators go round for ever; refuted by evaluation in binary64; `SpecLoops`, `P_StretchAny`: C98 and C99 for Slic3r and Cura again, for the written words and in every arithmetic, since the displacement is a function of the points |
| C100 | stretch filter | refuted by evaluation in binary64 |
| C12, C16, C18, C22, C28, C30, C33, C40, C42 (doubles) | the same functions in `B64` | `P_Float`: the operations, decimal reading and decimal printing of `B64` against correctly rounded reals (Flocq); `P_FloatText`: words read and printed; `P_FloatTrack`, `P_FloatFeed`, `P_FloatBox`, `P_FloatMotion`, `P_FloatTempcal`: the simulations of the exact theorems with the rounding errors added |
| C101 | `unsplit`, `parse_coordinates` in `B64` | printing, reading and printing gives the same decimals below 2^51 units of the last one |
| C102, C103 | `Events`: the calls made by the loading loop; `prepare` on an object that holds a program | invariant: the calls so far announce the closed layers and list the lines of the open one; structural; second loading as a trace of the machine from the state of the first |
| C104 | `Summary`: the report of `gcoder.main` | decimals read back; division with remainder for the duration |
| C105, C106 | conversion, and translation, conversion and pauses of `gcode_mod` one after the other, run on the reference machine | per line: what the translation leaves on the line object, then what the conversion makes of it; simulation of the two machines with bounds that count rounded words, for any size of the rounding errors (`P_ModRun`), so that exact arithmetic (`P_Mod`) and doubles (`P_FloatMod`) share it |
| C107, C108 | `VectorObj`: a memory of vectors, statements that overwrite components one after the other | frame lemmas for the memory; each component depends on components of its own name only; archimedean floor over the reals |
| C109, C20 (converse) | `load`, `layers_count` | `SpecHeights`: heights printed at, changes of height; one invariant of the load loop, generic in the reading of numbers (`P_Heights`), used for exact arithmetic and doubles; vases and close layers refuted by evaluation |
| C110 | `translate` twice, with `write` and `load` between | `SpecCompose`: when two lines ask for the same; what a pass writes is read back as it is (`P_Compose`); one invariant relates the states of the three passes (`P_ComposeWords`); C33 gives the positions |
| C111, C18 (machine) | `load` of what `translate` writes | `SpecBox`: lines that print, in terms of the reference machine; C12, C16 and C18 give the box of a text, C33 compares the two texts |
| C112 | `load` of what `to_relative_extrusion` writes | the same for C29 and C106: the two texts print in the same lines (`sharp`) with the head within half a thousandth |
| C113 | `load` of what `translate` and `to_relative_extrusion` write | line by line, the two texts take the head to the same heights (short Z words survive rounding to the last bit) and print in the same lines, so the scan that makes layers takes the same branches |
| C114 | the same | a written feed rate is zero only if the original is, and the other written words are numbers the parser accepts, so the loader's only failing step succeeds |
| C115 | loader; a separate predicate says which lines are idle | two scans in step, one of which sees idle lines in between; a height equals itself, which for doubles needs that heights stay finite |
| C116 | `gcode_tempcal`, `PauseAtLayer`, loader | what is inserted is idle, so C115 applies |
| C117 | the two filters | line by line: what one filter does to a line does not change what the other one sees of it; refuted for a bare G92 |
| C118 | arcs | the feed rate noted at a line is the last F word; a run accepted has one feed rate, which is written to three decimals on the arc; refuted for inches and for unknown feed rates |
| C119 | arcs, loader | the generated lines are well-formed: numbers with digits, a comment tail, an F word that is not negative |
| C120 | arcs | a run accepted consists of extruding moves; for doubles E stays a number, so travel moves make no arc; refuted for G2 and G3 in the original |
| C121 | arcs, loader | the loads of the original and of the optimised program run side by side: same texts step alike, replaced moves and generated lines leave all heights alone; refuted for extruding moves with a Z word |
| C122 | arcs, loader | what is taken into a row depends on the text only, and short rows pass unchanged (C52); refuted by a circle of short and long segments |
| C123 | arcs, loader, machine | each line that prints in the new program ends near where a line of the old one stops printing, and both boxes are those of the machine (C18); refuted by an arc that bulges |
| C124 | edits (`Index.v`) | after any edits the tables have one entry per line, so counting from the end finds the same line (C03); refuted for layers: the search for a negative number fails |
| C125 | edits | an edit is the replacement of one block, and the tables are a function of the blocks (C02), so edits compose as replacements do; refuted for a layer that was emptied |
| C126 | append (`Append.v`) | induction on the session: the state is folded over all commands, the lines over the stored ones |
| C127 | loader | induction on the lines: only T commands change the tool; Python's `int` agrees with the value of the digits |
| C128 | loader, arc optimiser | false: only G0 and G1 are timed; induction on the lines shows that removing all arcs leaves the state of the clock alone; one quarter of a circle in doubles |
| C129 | loader | induction on the lines with two clocks that differ only in their totals; false for `p` and `S`, three programs in doubles |
| C130 | loader | two lock-steps: machines that differ only in their home, and machines and scans that differ only in places; every arithmetic |
| C131 | loader, `__eq__` | a run is determined by the commands and numbers of its lines: both loads are turned into runs over their command lines with the lines erased from the scan; for absolute moves an induction over two such runs keeps the positions within the tolerance; two pairs of programs in doubles refute the rest |
| C68–C70 | command lines | structural |
| C71 | leading inline comments, text | false of the code, refuted in general |
| C72 | line numbers and checksums, text | tokens of the framed line equal those of the line |
| C73 | G00-G03 spellings | false of the code, refuted in general |
| C74 | bare G92 | false of the code, refuted in general |
| C76 | tempcal `write` | invariant: the last added line is that of the last target |
| C75 | `load_gen` light and not | erasure of line objects commutes with every step; structural |

Every property is expressible in the model; none is declared not applicable at
this point.

## 4. Trusted base

- Coq's kernel (and `vm_compute`), Coq 8.16.1.
- The faithfulness of the model: the code is not run here; each definition
  cites the lines it was read from. `Validate.v` runs the project's own tests
  (`gcodeutils/tests`) on the model in binary64 and they all hold, including
  the reference files made by the real program: the arc references 2 and 4
  and the first layer of the 12 427-line stretched Skeinforge model. (All its
  12 427 lines, and arc reference 1, were compared outside the build; they
  agree up to the number of decimals written.) `Validate.v` tests the model;
  no claim rests on it.
- The axioms printed by `Print Assumptions` under each theorem. Structural
  theorems and refutations are closed. Theorems over the reals use the axioms
  of the standard library's classical reals
  (`ClassicalDedekindReals.sig_forall_dec`,
  `ClassicalDedekindReals.sig_not_dec`,
  `FunctionalExtensionality.functional_extensionality_dep`, possibly
  `Classical_Prop.classic`). The theorems about doubles use lemmas of Flocq,
  which rest on the same axioms and add none.
