{"id": "C01", "title": "load then write is the identity on lines", "statement": "If GCode(data) succeeds, gcode.write(f) prints exactly the stripped, non-blank lines of data, in their original order, each once, with their original text.", "quantifier": "every list of text lines for which loading does not raise, every numeric semantics", "why_tests_cant": "the layer splitter scatters lines over layers by Z changes, snapping and rounding; a test only sees a few Z histories, while a dropped, duplicated or reordered line for one history ruins a print", "anchors": ["gcodeutils/gcoder.py:GCode.prepare", "gcodeutils/gcoder.py:GCode._preprocess", "gcodeutils/gcoder.py:GCode.write"]}
{"id": "C02", "title": "line index tables address the right line", "statement": "After loading, for every i < len(gcode), idxs(i) = (l, k) is such that all_layers[l][k] is the i-th line of the program, and len(gcode) is the number of lines.", "quantifier": "every successfully loaded program and every index", "why_tests_cant": "the tables are maintained incrementally across an unbounded number of layer changes", "anchors": ["gcodeutils/gcoder.py:GCode.idxs", "gcodeutils/gcoder.py:GCode._preprocess", "gcodeutils/gcoder.py:GCode.__len__"]}
{"id": "C03", "title": "prepend_to_layer inserts exactly the commands at the head of the layer", "statement": "gcode.prepend_to_layer(cmds, k) on a non-empty layer k puts the stripped non-blank cmds, in order, at the start of layer k, leaves every other layer and every existing line untouched, inserts them at the matching place of the line list, keeps idxs() consistent for every line, and returns the inserted commands; on an empty layer it raises ValueError, on a missing layer IndexError.", "quantifier": "every loaded program, every layer index, every list of commands, and any sequence of such insertions", "why_tests_cant": "index arithmetic over two parallel arrays and two lists; correctness depends on every layer shape and on any history of earlier insertions", "anchors": ["gcodeutils/gcoder.py:GCode.prepend_to_layer"]}
{"id": "C04", "title": "rewrite_layer replaces exactly one layer", "statement": "gcode.rewrite_layer(cmds, k) on a non-empty layer replaces that layer's lines by the stripped non-blank cmds in order, leaves all other layers and lines untouched and keeps idxs() consistent.", "quantifier": "every loaded program, every layer index, every list of commands", "why_tests_cant": "same index arithmetic; the last layer, empty replacements and shorter/longer replacements are all special cases", "anchors": ["gcodeutils/gcoder.py:GCode.rewrite_layer"]}
{"id": "C05", "title": "append adds one line at the end and keeps idxs consistent", "statement": "gcode.append(cmd) with a non-blank cmd adds exactly that line at the end of what write() prints, ignores blank commands, and idxs() of the new line addresses the new line.", "quantifier": "every program and every history of appends", "why_tests_cant": "the off-by-one is only visible through idxs() of an appended line, after any number of appends", "anchors": ["gcodeutils/gcoder.py:GCode.append"]}
{"id": "C06", "title": "incremental loading equals batch loading", "statement": "Appending lines one at a time leaves the machine state (position, offsets, modes, units, tool, feedrate, extrusion totals) equal to loading all the lines at once.", "quantifier": "every program, every split of it into a loaded prefix and appended suffix", "why_tests_cant": "the state is carried through instance attributes between calls; equality must hold for every split point", "anchors": ["gcodeutils/gcoder.py:GCode.append", "gcodeutils/gcoder.py:GCode._preprocess"]}
{"id": "C07", "title": "trailing comments do not change how a line is understood", "statement": "Adding a ';' comment at the end of a line (one without parentheses, slashes, stars or newlines of its own) changes neither its command nor any of its numeric arguments nor the machine state after it.", "quantifier": "every line text, every comment text without a newline, every machine state", "why_tests_cant": "the tokenizer is a backtracking regex over arbitrary text; comments may contain any letters and digits", "anchors": ["gcodeutils/gcoder.py:split", "gcodeutils/gcoder.py:parse_coordinates", "gcodeutils/gcoder.py:gcode_exp"]}
{"id": "C08", "title": "a pure comment line has no effect", "statement": "A line that starts with ';', or is one parenthesised comment, has command None, no coordinates, and loading it changes no position, mode, offset or total.", "quantifier": "every comment text, every machine state", "why_tests_cant": "comments contain arbitrary text including letters that look like commands", "anchors": ["gcodeutils/gcoder.py:split", "gcodeutils/gcoder.py:GCode._preprocess"]}
{"id": "C09", "title": "commands are case-insensitive", "statement": "Two lines that differ only in letter case get the same command, the same arguments and the same effect on the machine state.", "quantifier": "every line text whose command is recognised and that carries no case-sensitive P word", "why_tests_cant": "all mixed-case spellings of all lines", "anchors": ["gcodeutils/gcoder.py:split"]}
{"id": "C10", "title": "loading never crashes on well-formed lines and fails only on malformed ones", "statement": "If in every line the words of G commands carry either no number or a number with a digit, tool words carry an integer, dwell P words a number, and feedrates are not negative, then GCode(data) raises nothing; conversely the only exceptions it can raise are ValueError (a malformed word) and ZeroDivisionError (opposite feedrates).", "quantifier": "every list of text lines", "why_tests_cant": "crash freedom is over all texts; float('-'), int('') and division by lastf+f are each reachable only by particular texts or histories", "anchors": ["gcodeutils/gcoder.py:GCode._preprocess", "gcodeutils/gcoder.py:parse_coordinates", "gcodeutils/gcoder.py:find_specific_code"]}
{"id": "C11", "title": "free text in a program file does not abort loading", "statement": "Loading a program that contains a line of free text (no comment marker) does not raise.", "quantifier": "every line text", "why_tests_cant": "only lines whose first recognised letter is T crash; no test file has one", "anchors": ["gcodeutils/gcoder.py:GCode._preprocess"]}
{"id": "C12", "title": "tracked X/Y/Z position matches the machine", "statement": "After each line, current_x/y/z equal the position of a machine that executes the documented meaning of G0-G3 (absolute: offset plus word, relative: position plus word, missing word: unchanged), G90/G91, G20/G21, G92 (offset moves, head does not) and G28.", "quantifier": "every program, every home position", "why_tests_cant": "the position after n lines depends on the whole history of modes and offsets", "anchors": ["gcodeutils/gcoder.py:GCode._preprocess"]}
{"id": "C13", "title": "G28 homes only the named axes", "statement": "G28 with axis words homes exactly the named axes (their offset becomes 0 and their position the home position) and leaves the others alone.", "quantifier": "every machine state and every G28 line", "why_tests_cant": "the usual spellings G28 X and G28 X0 are value-dependent special cases", "anchors": ["gcodeutils/gcoder.py:GCode._preprocess"]}
{"id": "C14", "title": "G92 never moves the head", "statement": "A G92 line leaves the tracked head position unchanged; after G92 with a word for X, Y or Z the logical coordinate (abs_x, abs_y, abs_z) equals that word; axes without a word keep their logical coordinate.", "quantifier": "every machine state and every G92 line", "why_tests_cant": "depends on every earlier offset", "anchors": ["gcodeutils/gcoder.py:GCode._preprocess", "gcodeutils/gcoder.py:GCode.abs_pos"]}
{"id": "C15", "title": "G92 E re-bases the extruder like the other axes", "statement": "After G92 Ek the logical extruder position abs_e is k, and a following absolute move to Ev extrudes v-k: filament totals and the extruding flag are unaffected by re-basing.", "quantifier": "every machine state and every G92 E line followed by any move", "why_tests_cant": "the totals depend on the whole history of re-bases", "anchors": ["gcodeutils/gcoder.py:GCode._preprocess", "gcodeutils/gcoder.py:GCode.abs_e"]}
{"id": "C16", "title": "filament_length is the peak of the running extrusion total", "statement": "For programs without G92 E, current_e and total_e are the running sum of the extruded amounts (E word in relative mode, difference to the previous position in absolute mode) and filament_length is the maximum of 0 and all the running sums.", "quantifier": "every program without G92 E", "why_tests_cant": "the maximum ranges over all prefixes of the program", "anchors": ["gcodeutils/gcoder.py:GCode._preprocess", "gcodeutils/gcoder.py:GCode.filament_length"]}
{"id": "C17", "title": "modal flags follow the last mode command", "statement": "A move line is flagged relative iff the last G90/G91 before it was G91, and relative_e iff the last of G90/G91/M82/M83 before it was G91 or M83.", "quantifier": "every program and every line of it", "why_tests_cant": "last-of-history property", "anchors": ["gcodeutils/gcoder.py:GCode._preprocess"]}
{"id": "C18", "title": "the bounding box contains every extruding move and is tight", "statement": "If filament_length > 0 and some move extrudes, every extruding move's x and y lie in [xmin,xmax] and [ymin,ymax], each bound is attained by some extruding move, and width/depth/height are the differences.", "quantifier": "every loaded program", "why_tests_cant": "a universally quantified bound plus attainment", "anchors": ["gcodeutils/gcoder.py:GCode._preprocess"]}
{"id": "C19", "title": "Z bounds", "statement": "zmin <= 0 <= zmax, every Z in all_zs lies within [zmin,zmax], and zmax is 0 or a Z at which something was printed.", "quantifier": "every loaded program", "why_tests_cant": "a universally quantified bound plus attainment", "anchors": ["gcodeutils/gcoder.py:GCode._preprocess"]}
{"id": "C20", "title": "layers start where Z changes", "statement": "The layers cut the program into consecutive blocks, in order, followed by one empty block for appends; only the first of these blocks can be empty, and a new block is only opened at a line that changes the current Z word.", "quantifier": "every loaded program", "why_tests_cant": "layering depends on unbounded Z history including snapping", "anchors": ["gcodeutils/gcoder.py:GCode._preprocess", "gcodeutils/gcoder.py:Layer"]}
{"id": "C21", "title": "duration is defined and non-negative", "statement": "If no line has a negative feedrate or a negative dwell time (G4 P-1), estimating the duration raises nothing, each layer's duration and the total are >= 0, and the total is the sum of the layer durations.", "quantifier": "every program without negative F and P words", "why_tests_cant": "division by lastf+f and by f are reachable only through particular feedrate/direction histories", "anchors": ["gcodeutils/gcoder.py:GCode._preprocess", "gcodeutils/gcoder.py:GCode.estimate_duration"]}
{"id": "C22", "title": "rewritten lines parse back to the rounded values", "statement": "After unsplit(line) on a line with a G command, parsing line.raw again gives the same command and for each present argument its value rounded to 3 decimals (5 for E), absent arguments stay absent; so each value moves by at most 0.0005 (0.000005 for E).", "quantifier": "every G command and every combination and value of arguments", "why_tests_cant": "decimal printing and parsing over all numbers, signs, magnitudes and subsets of words", "anchors": ["gcodeutils/gcoder.py:unsplit", "gcodeutils/gcoder.py:split", "gcodeutils/gcoder.py:parse_coordinates"]}
{"id": "C23", "title": "rewriting a line keeps all its words", "statement": "unsplit(line) only reformats numbers: it keeps every word of the line (R, K, S, P, comments, unit).", "quantifier": "every line", "why_tests_cant": "lines with such words never occur in the tests", "anchors": ["gcodeutils/gcoder.py:unsplit"]}
{"id": "C24", "title": "program equality is an equivalence on programs of meaningful lines", "statement": "gcode1 == gcode2 holds iff the two programs have the same number of meaningful lines and these agree pairwise (same command, same words present, values within 0.001); in particular it is reflexive and symmetric.", "quantifier": "every pair of programs", "why_tests_cant": "lengths and positions of the first difference are unbounded; the off-by-one at the end of zip only shows for length difference exactly one", "anchors": ["gcodeutils/gcoder.py:GCode.__eq__", "gcodeutils/gcoder.py:PyLine.__eq__", "gcodeutils/gcoder.py:GCode.comment_stripper_generator"]}
{"id": "C25", "title": "diff agrees with equality", "statement": "gcode1.diff(gcode2) is None exactly when gcode1 == gcode2, and otherwise names the first differing position.", "quantifier": "every pair of programs", "why_tests_cant": "two separately written loops must agree on all inputs", "anchors": ["gcodeutils/gcoder.py:GCode.diff", "gcodeutils/gcoder.py:GCode.__eq__"]}
{"id": "C26", "title": "LightGCode programs compare like GCode programs", "statement": "LightGCode(a) == LightGCode(b) iff GCode(a) == GCode(b).", "quantifier": "every pair of programs", "why_tests_cant": "not tested; holds or fails for all inputs at once", "anchors": ["gcodeutils/gcoder.py:LightGCode", "gcodeutils/gcoder.py:GCode.comment_stripper_generator"]}
{"id": "C27", "title": "a filter pass is a line-by-line in-order rewriting", "statement": "GCodeFilter.filter visits every line of every layer once, in program order; a line for which opcode_filter returns None stays, one for which it returns a line or list is replaced by it in place, and nothing else changes (number and Z of layers included).", "quantifier": "every filter, every program", "why_tests_cant": "in-place mutation during iteration; all interleavings of None/line/list results", "anchors": ["gcodeutils/filter/filter.py:GCodeFilter.parse_gcode", "gcodeutils/filter/filter.py:GCodeFilter.parse_layer"]}
{"id": "C28", "title": "relative-extrusion conversion preserves what the printer extrudes", "statement": "Executing the output of GCodeToRelativeExtrusionFilter extrudes, move by move, the same filament amounts as executing the input.", "quantifier": "every program, any interleaving of M82/M83/G92/moves", "why_tests_cant": "conversion state depends on the whole history; the tests cover a five line file", "anchors": ["gcodeutils/filter/relative_extrusion.py:GCodeToRelativeExtrusionFilter.opcode_filter"]}
{"id": "C29", "title": "relative-extrusion conversion touches nothing but E and M82", "statement": "The conversion keeps the number and order of lines; non-move lines other than M82 and moves without E are untouched; a converted move keeps its command and its X, Y, Z, F, I, J values; M82 becomes M83; no M82 remains.", "quantifier": "every program", "why_tests_cant": "a frame condition over all lines", "anchors": ["gcodeutils/filter/relative_extrusion.py:GCodeToRelativeExtrusionFilter.opcode_filter"]}
{"id": "C30", "title": "relative-extrusion drift is bounded", "statement": "In the written text, the sum of the E words of n converted moves differs from the extruded amount they stand for by at most n * 0.000005 (exact arithmetic).", "quantifier": "every n and every sequence of absolute E values between two resets", "why_tests_cant": "rounding errors accumulate over unboundedly many moves", "anchors": ["gcodeutils/filter/relative_extrusion.py:GCodeToRelativeExtrusionFilter.opcode_filter", "gcodeutils/gcoder.py:unsplit"]}
{"id": "C31", "title": "relative-extrusion conversion is idempotent", "statement": "Running the conversion on its own output changes nothing.", "quantifier": "every program", "why_tests_cant": "depends on the mode history", "anchors": ["gcodeutils/filter/relative_extrusion.py:GCodeToRelativeExtrusionFilter"]}
{"id": "C32", "title": "translation shifts absolute moves", "statement": "After G90, GCodeXYTranslateFilter(x, y) adds x to the X word and y to the Y word of every move that has one, and changes no other argument, until the next G92; relative moves and all other lines are untouched.", "quantifier": "every program, every x and y", "why_tests_cant": "modal history", "anchors": ["gcodeutils/filter/translate.py:GCodeXYTranslateFilter.opcode_filter"]}
{"id": "C33", "title": "translation moves the printed part", "statement": "The head positions visited by the translated program are those of the original program shifted by (x, y), Z and E unchanged.", "quantifier": "every program (absolute and relative moves, G92 and G28), every x and y", "why_tests_cant": "the effect of G92/G28/G91 depends on the whole history", "anchors": ["gcodeutils/filter/translate.py:GCodeXYTranslateFilter"]}
{"id": "C34", "title": "translation by zero is a no-op", "statement": "GCodeXYTranslateFilter(0, 0) leaves the meaning of every program unchanged.", "quantifier": "every program", "why_tests_cant": "G92 lines are rewritten even by a zero translation; only programs with such lines show it", "anchors": ["gcodeutils/filter/translate.py:GCodeXYTranslateFilter"]}
{"id": "C35", "title": "filters respect the program's units", "statement": "Filtering a program in inches (G20) keeps its coordinates: the rewritten words mean the same lengths as before.", "quantifier": "every program with G20", "why_tests_cant": "no test program uses inches", "anchors": ["gcodeutils/gcoder.py:parse_coordinates", "gcodeutils/gcoder.py:unsplit", "gcodeutils/filter/translate.py:GCodeXYTranslateFilter"]}
{"id": "C36", "title": "the iterator visits everything once and in order", "statement": "GCodeIterator(gcode).accept(v) calls, for each layer in order, will_visit_layer, then visit_line for each line in order, then did_visit_layer; line_number counts lines of the whole program from 0 without gaps, will_visit_layer gets the number of the layer's first line and did_visit_layer that of its last line.", "quantifier": "every program, every non-mutating visitor", "why_tests_cant": "numbering across arbitrarily many, possibly empty, layers", "anchors": ["gcodeutils/visit/iterator.py:GCodeIterator.accept"]}
{"id": "C37", "title": "pause is inserted at the start of the chosen printed layers and nowhere else", "statement": "accept(PauseAtLayer(L)) inserts M226 as first line of each printed layer whose number is in L and changes nothing else.", "quantifier": "every program and every list L", "why_tests_cant": "layer identification goes through value equality of layers and of rounded Z values", "anchors": ["gcodeutils/visit/pause_at_layer.py:PauseAtLayer.did_visit_layer", "gcodeutils/visit/iterator.py:GCodeIterator.accept", "gcodeutils/gcoder.py:GCode.prepend_to_layer"]}
{"id": "C38", "title": "a layer is paused at most once", "statement": "accept(PauseAtLayer([n])) inserts at most one pause.", "quantifier": "every program", "why_tests_cant": "Z-hops revisit the same Z any number of times", "anchors": ["gcodeutils/visit/pause_at_layer.py:PauseAtLayer.did_visit_layer"]}
{"id": "C39", "title": "gcode_mod works on every loadable program", "statement": "gcode_mod -x/-y/-e/-p does not raise on a program that loads.", "quantifier": "every loadable program", "why_tests_cant": "needs an extrusion before the first Z word", "anchors": ["gcodeutils/gcode_mod.py:main", "gcodeutils/visit/iterator.py:GCodeIterator.__init__"]}
{"id": "C40", "title": "injected temperatures are within the safety bounds", "statement": "Every line gcode_tempcal adds is either blank or M104 S<t> with t printed with one decimal and 150 <= t <= 250.", "quantifier": "every program, every start/end temperature and step count, both gradient kinds", "why_tests_cant": "safety bound over all layers heights and parameters", "anchors": ["gcodeutils/gcode_tempcal.py:GCodeTempGradient.generate_temperature_gcode", "gcodeutils/gcode_tempcal.py:GCodeTempGradient.write"]}
{"id": "C41", "title": "tempcal keeps the original program", "statement": "Removing the injected lines from the output gives back exactly the lines of the program, in order; at most one line is injected per layer, in front of it.", "quantifier": "every program and all parameters for which write succeeds", "why_tests_cant": "frame property over all layers", "anchors": ["gcodeutils/gcode_tempcal.py:GCodeTempGradient.write"]}
{"id": "C42", "title": "tempcal does not repeat a temperature", "statement": "Two consecutive injected temperature targets are different.", "quantifier": "every program and parameters", "why_tests_cant": "history property over arbitrarily many layers", "anchors": ["gcodeutils/gcode_tempcal.py:GCodeTempGradient.write"]}
{"id": "C43", "title": "the continuous gradient is linear between its end points", "statement": "For z in [zmin,zmax] the continuous target is start at zmin, end at zmax, between start and end inside, and monotone in z.", "quantifier": "every z, start, end, zmin < zmax (exact arithmetic)", "why_tests_cant": "universally quantified over heights", "anchors": ["gcodeutils/gcode_tempcal.py:GCodeContinuousTempGradient.get_temp_for_current_layer"]}
{"id": "C44", "title": "the step gradient stays between start and end", "statement": "Every target of the step gradient lies between start_temp and end_temp.", "quantifier": "every z, start, end, step count", "why_tests_cant": "the overshoot shows only for decreasing gradients near the top", "anchors": ["gcodeutils/gcode_tempcal.py:GCodeStepTempGradient.get_temp_for_current_layer"]}
{"id": "C45", "title": "the step gradient has the requested number of steps", "statement": "With steps = n the step gradient produces at most n+1 different temperatures.", "quantifier": "every n, every model height", "why_tests_cant": "requires more layers than steps", "anchors": ["gcodeutils/gcode_tempcal.py:GCodeStepTempGradient"]}
{"id": "C46", "title": "no temperature change below min_z_change", "statement": "No temperature is injected for a layer at or below min_z_change.", "quantifier": "every program and min_z_change", "why_tests_cant": "depends on which layer comes first", "anchors": ["gcodeutils/gcode_tempcal.py:GCodeTempGradient._parse_gcode"]}
{"id": "C47", "title": "tempcal refuses models without height", "statement": "write raises RuntimeError if no layer has a known height or if the lowest considered height is not below the printed height; when it raises this way nothing is written.", "quantifier": "every program", "why_tests_cant": "partial output before the exception would destroy a file opened for writing", "anchors": ["gcodeutils/gcode_tempcal.py:GCodeTempGradient._parse_gcode"]}
{"id": "C48", "title": "the --steps option works from the command line", "statement": "gcode_tempcal --steps N builds a gradient with N steps.", "quantifier": "every N", "why_tests_cant": "no test calls the command line", "anchors": ["gcodeutils/gcode_tempcal.py:main", "gcodeutils/gcode_tempcal.py:GCodeStepTempGradient.__init__"]}
{"id": "C49", "title": "arc optimisation keeps every line that is not part of an arc", "statement": "The output of GCodeArcOptimizerFilter is the input program in order, with some runs of consecutive queued lines replaced by one G2/G3 line (optionally followed by one G92 E line); each run's first line and the line after it are kept; with no arc found the written program is unchanged.", "quantifier": "every program, whatever the circle fit decides", "why_tests_cant": "a queue carried across layers with six flush paths", "anchors": ["gcodeutils/filter/arc_optimizer.py:GCodeArcOptimizerFilter.opcode_filter", "gcodeutils/filter/arc_optimizer.py:GCodeArcOptimizerFilter.parse_gcode", "gcodeutils/filter/arc_optimizer.py:GCodeArcOptimizerFilter.to_gcode"]}
{"id": "C50", "title": "non-move commands are never absorbed into an arc", "statement": "Every line with a command other than G0-G3 appears unchanged in the output, in order.", "quantifier": "every program", "why_tests_cant": "flush logic on every interleaving", "anchors": ["gcodeutils/filter/arc_optimizer.py:GCodeArcOptimizerFilter.opcode_filter"]}
{"id": "C51", "title": "an arc stands for at least 8 segments on one circle", "statement": "Each generated arc replaces at least 8 segments whose end points were all within 0.015 of one circle of radius at most 200, with the same feedrate and Z; it ends at the last of these points and its centre offset is that of this circle, all rounded to 0.001.", "quantifier": "every program", "why_tests_cant": "window invariant over all histories", "anchors": ["gcodeutils/filter/arc_optimizer.py:GCodeArcOptimizerFilter.queue_valid", "gcodeutils/filter/arc_optimizer.py:GCodeArcOptimizerFilter.get_circle", "gcodeutils/filter/arc_optimizer.py:GCodeArcOptimizerFilter.to_gcode"]}
{"id": "C52", "title": "arc optimisation does not crash", "statement": "GCodeArcOptimizerFilter.filter raises nothing on a loaded program.", "quantifier": "every loadable program", "why_tests_cant": "needs circular travel moves, or a comment at the start of a window", "anchors": ["gcodeutils/filter/arc_optimizer.py:GCodeArcOptimizerFilter"]}
{"id": "C53", "title": "arc optimisation preserves extrusion", "statement": "The arc extrudes at least as much as the segments it replaces, and the extruder position after it agrees with the original program.", "quantifier": "every arc, both directions, both extrusion modes", "why_tests_cant": "sign of the angle steps depends on the direction", "anchors": ["gcodeutils/filter/arc_optimizer.py:GCodeArcOptimizerFilter.to_gcode"]}
{"id": "C54", "title": "arc end points are in program coordinates", "statement": "The X/Y words of a generated arc make the machine end where the last replaced move ended.", "quantifier": "every program, including after G92 X/Y and in relative mode", "why_tests_cant": "no test uses G92 X/Y or G91 with arcs", "anchors": ["gcodeutils/filter/arc_optimizer.py:GCodeArcOptimizerFilter.to_gcode"]}
{"id": "C55", "title": "angle differences are normalised", "statement": "phase_diff(a, b) differs from a-b by a multiple of 2*pi and lies in [-pi, pi] for all angles a, b in [-pi, pi].", "quantifier": "all real angles", "why_tests_cant": "all pairs of angles", "anchors": ["gcodeutils/filter/arc_optimizer.py:GCodeArcOptimizerFilter.phase_diff"]}
{"id": "C56", "title": "stretch keeps the program's shape", "statement": "Stretching keeps the number of layers and lines; every line that is not an in-loop G0/G1 with X or Y keeps its command and numeric arguments and its text up to appended '; stretch-...' comments.", "quantifier": "every program, every slicer dialect and settings, whenever it succeeds", "why_tests_cant": "frame property over all lines", "anchors": ["gcodeutils/stretch/stretch.py:StretchFilter.filter", "gcodeutils/stretch/stretch.py:StretchFilter.parse_line"]}
{"id": "C57", "title": "stretch displacement is bounded by the configured maximum", "statement": "A stretched point lies within thread_maximum_absolute_stretch of the point it replaces (exact arithmetic), i.e. at most edge width times the loop/inner/outer ratio times the strength.", "quantifier": "every loop geometry and every positive setting", "why_tests_cant": "geometry over all point configurations (projections, normalisation, clipping)", "anchors": ["gcodeutils/stretch/stretch.py:StretchFilter.get_stretched_line_from_index_location", "gcodeutils/stretch/stretch.py:StretchFilter.get_relative_stretch", "gcodeutils/stretch/stretch.py:StretchFilter.get_cross_limited_stretch"]}
{"id": "C58", "title": "zero stretch strength leaves moves alone", "statement": "With stretch_strength = 0 no move changes.", "quantifier": "every program", "why_tests_cant": "all programs", "anchors": ["gcodeutils/stretch/stretch.py:StretchRepository", "gcodeutils/stretch/stretch.py:StretchFilter.stretch_line"]}
{"id": "C59", "title": "stretch keeps Z, command and scales extrusion mildly", "statement": "A stretched line keeps the command and Z word of the original, has an E word iff the original had, and E is scaled by a factor between 1 - max stretch and 1.", "quantifier": "every in-loop move, every geometry", "why_tests_cant": "all geometries", "anchors": ["gcodeutils/stretch/stretch.py:StretchFilter.get_stretched_line_from_index_location"]}
{"id": "C60", "title": "stretch keeps the feedrate", "statement": "A stretched move runs at the feedrate the original move ran at.", "quantifier": "every program", "why_tests_cant": "depends on where the last F word was", "anchors": ["gcodeutils/stretch/stretch.py:StretchFilter.stretch_line"]}
{"id": "C61", "title": "stretch starts from the real position", "statement": "A stretched move with only one of X and Y keeps the other coordinate near the machine's current one.", "quantifier": "every program", "why_tests_cant": "depends on moves outside loops", "anchors": ["gcodeutils/stretch/stretch.py:StretchFilter.stretch_line", "gcodeutils/stretch/stretch.py:get_location_from_line"]}
{"id": "C62", "title": "stretch terminates", "statement": "Stretching any program terminates.", "quantifier": "every program", "why_tests_cant": "non-termination needs a particular marker layout and short segments", "anchors": ["gcodeutils/stretch/stretch.py:LineIteratorForward.reset_index_on_limit", "gcodeutils/stretch/stretch.py:LineIteratorForwardLegacy.get_next", "gcodeutils/stretch/stretch.py:StretchFilter.get_relative_stretch"]}
{"id": "C63", "title": "stretch does not crash on Cura programs", "statement": "CuraStretchFilter raises nothing on a loaded Cura program.", "quantifier": "every program", "why_tests_cant": "needs a wall type with a single move at the end of a layer", "anchors": ["gcodeutils/stretch/stretch.py:CuraLineIteratorForward.index_setup"]}
{"id": "C64", "title": "forward/backward iterators only return loop moves with X or Y", "statement": "Every line returned by a line iterator's get_next is a G0/G1 of the layer with an X or Y word, and without a wrap-around the returned indices strictly increase (forward) or decrease (backward).", "quantifier": "every layer, every start index", "why_tests_cant": "all marker layouts", "anchors": ["gcodeutils/stretch/stretch.py:LineIteratorForwardLegacy.get_next"]}
{"id": "C65", "title": "loop type selects the strength", "statement": "Inside a loop the maximum stretch in force is edge width times the ratio of the most recent start marker (inner, outer or plain loop); outside loops it is 0 and lines are returned untouched.", "quantifier": "every marker history", "why_tests_cant": "history property", "anchors": ["gcodeutils/stretch/stretch.py:StretchFilter.parse_line"]}
{"id": "C66", "title": "vector algebra laws", "statement": "cross(a,b) is orthogonal to a and b and anticommutes; |a|^2 = a.a; distance is a metric; reflect is a length-preserving involution for unit normals; getNormalized has magnitude 1 for non-zero vectors and is the identity on zero; addition, subtraction, negation and scaling satisfy the vector space laws.", "quantifier": "all real vectors", "why_tests_cant": "algebraic laws over all reals", "anchors": ["gcodeutils/stretch/vector3.py:Vector3"]}
{"id": "C67", "title": "equal vectors hash equally", "statement": "If v == w then hash(v) == hash(w).", "quantifier": "all vectors", "why_tests_cant": "0.0 and -0.0, 1 and 1.0", "anchors": ["gcodeutils/stretch/vector3.py:Vector3.__hash__", "gcodeutils/stretch/vector3.py:Vector3.__eq__"]}
{"id": "C68", "title": "is_cura_gcode selects the dialect", "statement": "gcode_stretch uses the Cura dialect iff some line of the program contains CURA_PROFILE_STRING.", "quantifier": "every program", "why_tests_cant": "all programs", "anchors": ["gcodeutils/gcode_stretch.py:is_cura_gcode", "gcodeutils/gcode_stretch.py:main"]}
{"id": "C69", "title": "gcode_mod without options is the identity on lines", "statement": "gcode_mod with none of -x, -y, -e, -p writes the stripped non-blank lines of its input, or raises.", "quantifier": "every program", "why_tests_cant": "all programs", "anchors": ["gcodeutils/gcode_mod.py:main"]}
{"id": "C70", "title": "gcode_mod options compose in a fixed order", "statement": "With several options the output is translate, then relative extrusion, then pause.", "quantifier": "all option combinations", "why_tests_cant": "all programs and options", "anchors": ["gcodeutils/gcode_mod.py:main"]}
{"id": "C71", "title": "a leading inline comment does not hide the command", "statement": "A line with a parenthesised comment in front of a command, like '(note) G1 X5', is understood as that command.", "quantifier": "every comment text, every command, every machine state", "why_tests_cant": "all texts", "anchors": ["gcodeutils/gcoder.py:split"]}
{"id": "C72", "title": "line numbers and checksums are transparent", "statement": "A command sent with a line number in front and a checksum behind ('N12 G1 X5*71') gets the same command and arguments and has the same effect as the bare command.", "quantifier": "every one-line command text, every line number and checksum, every machine state", "why_tests_cant": "all texts", "anchors": ["gcodeutils/gcoder.py:split", "gcodeutils/gcoder.py:gcode_exp"]}
{"id": "C73", "title": "zero-padded command numbers mean the same command", "statement": "A line G01 X.. (or G00, G02, G03) is treated like the same line with G1 (G0, G2, G3): it is a move and updates the position.", "quantifier": "every machine state and every such line", "why_tests_cant": "whether a spelling is recognised must be settled for every line; tests only use the usual spelling", "anchors": ["gcodeutils/gcoder.py:MOVE_GCODES", "gcodeutils/gcoder.py:split", "gcodeutils/gcoder.py:GCode._preprocess"]}
{"id": "C74", "title": "a bare G92 zeroes every logical coordinate", "statement": "G92 without words makes every logical coordinate (abs_x, abs_y, abs_z, abs_e) zero, as RepRap firmware does.", "quantifier": "every machine state", "why_tests_cant": "needs all reachable offsets and positions", "anchors": ["gcodeutils/gcoder.py:GCode._preprocess", "gcodeutils/gcoder.py:GCode.abs_x"]}
{"id": "C75", "title": "LightGCode measures the same as GCode", "statement": "For the same text and home position GCode(...) and LightGCode(...) raise the same error or report the same lines, layers, Z list, bounds, filament length, durations and final machine state.", "quantifier": "every program text and home position", "why_tests_cant": "the two classes share code but store different line objects; only a proof covers every program", "anchors": ["gcodeutils/gcoder.py:GCode._preprocess", "gcodeutils/gcoder.py:LightGCode"]}
{"id": "C76", "title": "each layer is printed at its gradient temperature", "statement": "For every layer whose first line ends at a height z different from 0 and between the lowest considered height and the printed height, the last line gcode_tempcal adds before the layer is the one for the gradient temperature of z rounded to 0.1.", "quantifier": "every program, both gradients, all temperatures (exact arithmetic)", "why_tests_cant": "consecutive layers with the same rounded target share one line, so this is about the whole history of the output", "anchors": ["gcodeutils/gcode_tempcal.py:GCodeTempGradient.write"]}
{"id": "C77", "title": "arc optimisation keeps the height", "statement": "After the arc the head is at the height at which the last replaced move left it.", "quantifier": "every program in which an arc is found", "why_tests_cant": "needs a height change on the first segment of a window", "anchors": ["gcodeutils/filter/arc_optimizer.py:GCodeArcOptimizerFilter.queue_valid", "gcodeutils/filter/arc_optimizer.py:GCodeArcOptimizerFilter.to_gcode"]}
{"id": "C78", "title": "gcode_stretch writes only the program", "statement": "Everything gcode_stretch writes to standard output, its default output, is the stretched program; the output can be loaded again.", "quantifier": "every program it succeeds on", "why_tests_cant": "the diagnostic that is printed needs a loop that its layer does not close", "anchors": ["gcodeutils/stretch/stretch.py:LineIteratorForwardLegacy.get_next", "gcodeutils/gcode_stretch.py:main"]}
{"id": "C79", "title": "stretch respects inches", "statement": "Stretching a program in inches moves each point by at most the limit, as in millimetres.", "quantifier": "every program with G20", "why_tests_cant": "needs a program in inches with a loop", "anchors": ["gcodeutils/stretch/stretch.py:StretchFilter.get_stretched_line_from_index_location", "gcodeutils/gcoder.py:unsplit"]}
{"id": "C80", "title": "stretch respects relative positioning", "statement": "In a program with relative positions the head still stays within the limit of its unstretched path.", "quantifier": "every program with G91", "why_tests_cant": "displacements add up along a loop", "anchors": ["gcodeutils/stretch/stretch.py:StretchFilter.stretch_line", "gcodeutils/stretch/stretch.py:StretchFilter.get_stretched_line_from_index_location"]}
{"id": "C81", "title": "only perimeters are stretched", "statement": "Moves that the slicer's comments do not declare to be perimeter moves (infill, support, skirt) are not stretched.", "quantifier": "every program, every dialect", "why_tests_cant": "needs a loop that no comment of its layer closes, or a type the filter does not know", "anchors": ["gcodeutils/stretch/stretch.py:Slic3rStretchFilter", "gcodeutils/stretch/stretch.py:CuraStretchFilter"]}
{"id": "C82", "title": "absolute extrusion is stretched like relative extrusion", "statement": "gcode_stretch stretches a program with absolute extrusion as it stretches the same program with relative extrusion.", "quantifier": "every program", "why_tests_cant": "the conversion to relative extrusion rewrites lines before the dialect's comments are read", "anchors": ["gcodeutils/gcode_stretch.py:main", "gcodeutils/filter/relative_extrusion.py:GCodeToRelativeExtrusionFilter"]}
{"id": "C83", "title": "a vector is true unless it is zero", "statement": "bool(v) is False exactly when all components of the Vector3 v are zero.", "quantifier": "all vectors", "why_tests_cant": "needs the rules of the Python version in use, not one call", "anchors": ["gcodeutils/stretch/vector3.py:Vector3.__nonzero__"]}
{"id": "C84", "title": "the edge width is the declared one", "statement": "The edge width all stretch lengths are multiples of is the one in the last comment of the program that declares it; it is 0.4 mm in a Slic3r program without such a comment and in a Cura program without a profile.", "quantifier": "every Slic3r and Skeinforge program, every Cura program without a profile", "why_tests_cant": "all positions and spellings of the comments", "anchors": ["gcodeutils/stretch/stretch.py:Slic3rStretchFilter.setup_filter", "gcodeutils/stretch/stretch.py:SkeinforgeStretchFilter.parse_initialisation_line", "gcodeutils/stretch/stretch.py:CuraStretchFilter.setup_filter"]}
{"id": "C85", "title": "only the output file is written", "statement": "While a command runs, and if it is cut off at any point, every file except its output file (with --inplace: its input file) keeps its contents; a Cura plug-in only writes the program it was given.", "quantifier": "every command, options, programs, file system, every point at which the run is cut off", "why_tests_cant": "all crash points", "anchors": ["gcodeutils/gcode_mod.py:main", "gcodeutils/gcode_tempcal.py:main", "gcodeutils/gcode_stretch.py:main", "gcodeutils/gcode_optimize_arcs.py:main", "cura_plugins/stretch_plugin.py", "cura_plugins/tempcal_plugin.py"]}
{"id": "C86", "title": "a failed run keeps the earlier output", "statement": "If a command fails, an output file that existed before still has its earlier contents.", "quantifier": "every command, program and file system", "why_tests_cant": "the output file has to exist before the failing run", "anchors": ["gcodeutils/gcode_mod.py:main", "gcodeutils/gcode_tempcal.py:main", "gcodeutils/gcode_stretch.py:main", "gcodeutils/gcode_optimize_arcs.py:main"]}
{"id": "C87", "title": "one name for input and output", "statement": "Naming the same file as input and output replaces the program by its modified version.", "quantifier": "every command, options and program", "why_tests_cant": "destroys the file it is tested with", "anchors": ["gcodeutils/gcode_mod.py:main", "gcodeutils/gcode_tempcal.py:main", "gcodeutils/gcode_stretch.py:main", "gcodeutils/gcode_optimize_arcs.py:main"]}
{"id": "C88", "title": "--inplace is safe", "statement": "gcode_optimize_arcs --inplace replaces the file by the optimised program; if it fails the file is unchanged, and if it is cut off the file holds the old or the new program.", "quantifier": "every program and every point at which the run is cut off", "why_tests_cant": "all crash points", "anchors": ["gcodeutils/gcode_optimize_arcs.py:main"]}
{"id": "C89", "title": "--inplace leaves a named output file alone or writes it", "statement": "With --inplace and an output file, the output file is either not touched or receives the result.", "quantifier": "every program and file system", "why_tests_cant": "needs both options and an earlier file", "anchors": ["gcodeutils/gcode_optimize_arcs.py:main"]}
{"id": "C90", "title": "a failing Cura plug-in leaves the program intact", "statement": "If a Cura plug-in raises an exception the program file still holds the sliced program.", "quantifier": "every program and parameters", "why_tests_cant": "needs programs on which the plug-in fails", "anchors": ["cura_plugins/stretch_plugin.py", "cura_plugins/tempcal_plugin.py"]}
{"id": "C91", "title": "copies of program files are stable", "statement": "gcode_mod without options writes the non-blank lines of the file, stripped, each with one line end; copying the copy gives the same text, and every command does to the copy what it does to the original.", "quantifier": "every text file gcode_mod succeeds on, every second command", "why_tests_cant": "all texts: line ends, blanks, blank lines, a missing last line end", "anchors": ["gcodeutils/gcode_mod.py:main", "gcodeutils/gcoder.py:GCode.write", "gcodeutils/gcoder.py:GCode.prepare"]}
{"id": "C92", "title": "files and pipes agree", "statement": "A command writes to its output file exactly what it prints after its messages when it reads the same text from a pipe.", "quantifier": "every command, options and text", "why_tests_cant": "all programs and failures", "anchors": ["gcodeutils/gcode_mod.py:main", "gcodeutils/gcode_tempcal.py:main", "gcodeutils/gcode_stretch.py:main", "gcodeutils/gcode_optimize_arcs.py:main"]}
{"id": "C93", "title": "DOS line ends", "statement": "A program file with DOS line ends is handled as the one with Unix line ends.", "quantifier": "every command, options and program", "why_tests_cant": "all texts", "anchors": ["gcodeutils/gcode_mod.py:main", "gcodeutils/gcode_tempcal.py:main", "gcodeutils/gcode_stretch.py:main", "gcodeutils/gcode_optimize_arcs.py:main"]}
{"id": "C94", "title": "replaced segments are evenly spaced", "statement": "The segments an arc stands for are evenly spaced on its circle: the angle of each is within 5 degrees of their mean, so that no long straight move is bent into an arc.", "quantifier": "every program, both directions", "why_tests_cant": "the error test is one-sided; a test needs one long clockwise chord in a row of short ones", "anchors": ["gcodeutils/filter/arc_optimizer.py:GCodeArcOptimizerFilter.get_circle", "gcodeutils/filter/arc_optimizer.py:GCodeArcOptimizerFilter.get_circle_angle_errors"]}
{"id": "C95", "title": "an arc turns as the moves do", "statement": "A generated arc goes round its centre in the direction in which the moves it replaces lead from its start to its end.", "quantifier": "every program, including moves that turn back", "why_tests_cant": "direction taken from three points of a window of any length", "anchors": ["gcodeutils/filter/arc_optimizer.py:GCodeArcOptimizerFilter.get_circle_least_squares", "gcodeutils/filter/arc_optimizer.py:GCodeArcOptimizerFilter.to_gcode"]}
{"id": "C96", "title": "the stretch is the documented function of the path", "statement": "A stretched point is moved by the largest displacement times a vector no longer than 1: the sum of the directions away from the points of the path that lie the stretch-from distance ahead and behind, times 0.8, of which the part across each neighbouring thread is reduced in proportion to the thread's length between a third of the cross limit and the cross limit.", "quantifier": "every program, slicer, options and point of a loop", "why_tests_cant": "a real-valued function of a path of any number of points", "anchors": ["gcodeutils/stretch/stretch.py:StretchFilter.get_stretched_line_from_index_location", "gcodeutils/stretch/stretch.py:StretchFilter.get_cross_limited_stretch", "gcodeutils/stretch/stretch.py:StretchFilter.get_relative_stretch"]}
{"id": "C97", "title": "stretching pushes corners outwards", "statement": "Stretching moves a corner of a loop out of its angle, never into it.", "quantifier": "every program, options and corner", "why_tests_cant": "the sign depends on the angle and on both thread lengths", "anchors": ["gcodeutils/stretch/stretch.py:StretchFilter.get_cross_limited_stretch", "gcodeutils/stretch/stretch.py:StretchFilter.get_stretched_line_from_index_location"]}
{"id": "C98", "title": "a closed loop stays closed", "statement": "A perimeter that ends where it starts still ends where it starts after stretching.", "quantifier": "every program, slicer and options", "why_tests_cant": "every loop of any number of points; depends on what surrounds the loop", "anchors": ["gcodeutils/stretch/stretch.py:StretchFilter.get_stretched_line_from_index_location", "gcodeutils/stretch/stretch.py:LineIteratorForward", "gcodeutils/stretch/stretch.py:LineIteratorBackward", "gcodeutils/stretch/stretch.py:CuraLineIteratorBackward"]}
{"id": "C99", "title": "loops are stretched independently", "statement": "Where stretching moves the points of a loop depends on the points of that loop and the settings, not on the rest of the program.", "quantifier": "every two programs that contain the same loop", "why_tests_cant": "all surroundings of a loop", "anchors": ["gcodeutils/stretch/stretch.py:LineIteratorForward", "gcodeutils/stretch/stretch.py:LineIteratorBackward", "gcodeutils/stretch/stretch.py:StretchFilter.get_relative_stretch"]}
{"id": "C100", "title": "words that repeat a coordinate may be left out", "statement": "Leaving out an X or Y word that repeats the current coordinate does not change where stretching moves the points.", "quantifier": "every program and options", "why_tests_cant": "all ways of leaving words out", "anchors": ["gcodeutils/stretch/stretch.py:StretchFilter.get_relative_stretch", "gcodeutils/stretch/stretch.py:StretchFilter.get_cross_limited_stretch"]}
{"id": "C101", "title": "rewritten lines are stable", "statement": "A line written by the filters, loaded again and rewritten with the numbers it was loaded with, is the same text: numbers do not creep when filters are run again and again.", "quantifier": "every G command except G20, every combination of words, all doubles up to a billion", "why_tests_cant": "all doubles: printed decimals have to be read back to a double that prints the same", "anchors": ["gcodeutils/gcoder.py:unsplit", "gcodeutils/gcoder.py:parse_coordinates"]}
{"id": "C102", "title": "callbacks see every line and every layer", "statement": "While a program is loaded, line_callback is called once for each line, in order, with the parsed line, and layer_callback once for each layer of the program, in order, after the last line of the layer and before the first line of the next.", "quantifier": "every program and both line classes", "why_tests_cant": "any number of layers and lines; the interleaving matters", "anchors": ["gcodeutils/gcoder.py:GCode._preprocess", "gcodeutils/gcoder.py:GCode.prepare"]}
{"id": "C103", "title": "an object can be prepared again", "statement": "Calling prepare with another program gives the same lines, positions and measures as a new object made from that program.", "quantifier": "every pair of programs", "why_tests_cant": "state left behind by any first program", "anchors": ["gcodeutils/gcoder.py:GCode.prepare", "gcodeutils/gcoder.py:GCode._preprocess", "gcodeutils/gcoder.py:GCode.__init__"]}
{"id": "C104", "title": "the report tells the measures", "statement": "The report printed for a program gives the bounds and sizes in X, Y and Z and the filament length to half a hundredth of a millimetre, the number of layer heights, and the duration in whole seconds as days, hours, minutes and seconds.", "quantifier": "every loaded program", "why_tests_cant": "all values of the measures, including negative ones and durations of days", "anchors": ["gcodeutils/gcoder.py:main", "gcodeutils/gcoder.py:GCode.estimate_duration"]}
{"id": "C105", "title": "converting to relative extrusion keeps the head", "statement": "Converting a program to relative extrusion does not change where the head is after any line: on an axis driven in absolute coordinates and never set by G92 it stays within half a thousandth of a millimetre, in any case within half a thousandth per move of the axis.", "quantifier": "every program in millimetres, every line of it", "why_tests_cant": "every history of moves, resets and mode changes before the line", "anchors": ["gcodeutils/filter/relative_extrusion.py:GCodeToRelativeExtrusionFilter", "gcodeutils/gcoder.py:unsplit"]}
{"id": "C106", "title": "gcode_mod from file to file", "statement": "Whatever combination of options gcode_mod is given, after every line of its output, pauses apart, the head is where the input program has it, shifted by the amounts asked for, and the extruder has been fed what the input program feeds.", "quantifier": "every program, every combination of -x, -y, -e and -p", "why_tests_cant": "the filters work on the objects left by the filters before them, so rounding and state combine over the whole program", "anchors": ["gcodeutils/gcode_mod.py:main", "gcodeutils/filter/translate.py:GCodeXYTranslateFilter", "gcodeutils/filter/relative_extrusion.py:GCodeToRelativeExtrusionFilter", "gcodeutils/visit/pause_at_layer.py:PauseAtLayer"]}
{"id": "C107", "title": "vector objects change only when asked to", "statement": "An in-place operator or method of a vector leaves in that vector exactly what the corresponding operator returns, also when both operands are the same object, and changes nothing when it raises; every other method makes a new vector; a vector that is never the target of an in-place operation keeps its value through any sequence of operations. Setting an accessible attribute sets that component only.", "quantifier": "every memory of vectors, every statement and every sequence of statements, shared operands included", "why_tests_cant": "all ways of sharing objects; components are overwritten one after the other while they are still read", "anchors": ["gcodeutils/stretch/vector3.py:Vector3.__iadd__", "gcodeutils/stretch/vector3.py:Vector3.__ifloordiv__", "gcodeutils/stretch/vector3.py:Vector3.__itruediv__", "gcodeutils/stretch/vector3.py:Vector3.normalize", "gcodeutils/stretch/vector3.py:Vector3.setToVector3", "gcodeutils/stretch/vector3.py:Vector3._setAccessibleAttribute"]}
{"id": "C108", "title": "floor division and division into a vector", "statement": "Floor division of a vector by a number gives for every component the greatest integer not above the quotient; a number divided by a vector is divided by each component; ZeroDivisionError is raised exactly when a divisor is zero. Dropping an axis leaves the other two components in order.", "quantifier": "every vector and number", "why_tests_cant": "all signs and magnitudes", "anchors": ["gcodeutils/stretch/vector3.py:Vector3.__floordiv__", "gcodeutils/stretch/vector3.py:Vector3.__rfloordiv__", "gcodeutils/stretch/vector3.py:Vector3.__rtruediv__", "gcodeutils/stretch/vector3.py:Vector3.dropAxis", "gcodeutils/stretch/vector3.py:Vector3.getFloatList"]}
{"id": "C109", "title": "the number of layers counts the printed heights", "statement": "The number of layers the parser reports is the number of different heights at which the program prints, and the layer number of a line is the number of changes of height up to it.", "quantifier": "every program that loads; changes of height of at least a fiftieth of a millimetre, none while printing", "why_tests_cant": "all programs, with heights visited in any order and any number of travel moves between them", "anchors": ["gcodeutils/gcoder.py:GCode.layers_count", "gcodeutils/gcoder.py:GCode._preprocess"]}
{"id": "C110", "title": "moving twice is moving by the sum", "statement": "Translating a program, writing it, reading it again and translating it again gives, line by line and up to rounding, the program translated once by the sum of the two vectors; a translation followed by the opposite one leaves the head where the original program takes it.", "quantifier": "every program in millimetres, every pair of translations", "why_tests_cant": "all programs with any use of G90, G91 and G92, and all vectors; the second pass reads what the first one wrote", "anchors": ["gcodeutils/filter/translate.py:GCodeXYTranslateFilter", "gcodeutils/gcoder.py:GCode.write"]}
{"id": "C111", "title": "measuring a translated program", "statement": "A translated program, written and read again, reports the bounding box of the original shifted by the translation and the same amount of filament, up to rounding.", "quantifier": "every program with absolute positions that prints, every translation", "why_tests_cant": "all programs and vectors; the second reading starts from what was written", "anchors": ["gcodeutils/filter/translate.py:GCodeXYTranslateFilter", "gcodeutils/gcoder.py:GCode._preprocess"]}
{"id": "C112", "title": "measuring a program converted to relative extrusion", "statement": "A program converted to relative extrusion, written and read again, reports the same amount of filament and the same bounding box as the original, up to rounding.", "quantifier": "every program in millimetres that prints", "why_tests_cant": "all programs, with any number of retractions; rounding adds up over the lines and the second reading starts from what was written", "anchors": ["gcodeutils/filter/relative_extrusion.py:GCodeToRelativeExtrusionFilter", "gcodeutils/gcoder.py:GCode._preprocess"]}
{"id": "C113", "title": "the filters keep the layers", "statement": "A program that was translated or converted to relative extrusion, written and read again, has the layers of the original: every line lies in the layer with the same number, the same lines print, and the printed heights are the same.", "quantifier": "every program, every translation", "why_tests_cant": "all programs; only some lines are written anew, with rounded heights, and the second reading starts from what was written", "anchors": ["gcodeutils/filter/translate.py:GCodeXYTranslateFilter", "gcodeutils/filter/relative_extrusion.py:GCodeToRelativeExtrusionFilter", "gcodeutils/gcoder.py:GCode._preprocess"]}
{"id": "C114", "title": "what the filters write can be read again", "statement": "The file written after translating a program or converting it to relative extrusion is read again without an exception.", "quantifier": "every program that loads, every translation", "why_tests_cant": "all programs; a feed rate that is rounded to zero or a number the parser does not accept would only show in the second reading", "anchors": ["gcodeutils/filter/translate.py:GCodeXYTranslateFilter", "gcodeutils/filter/relative_extrusion.py:GCodeToRelativeExtrusionFilter", "gcodeutils/gcoder.py:GCode.write", "gcodeutils/gcoder.py:GCode.__init__"]}
{"id": "C115", "title": "commands that do not move change no measure", "statement": "Inserting M commands other than M82 and M83, comments or text without commands anywhere into a program changes neither whether it loads nor the final state of the machine, the bounding box, the filament, the duration, or the layers, their heights and their times.", "quantifier": "every program with numbers of at most a million and every way of inserting such lines", "why_tests_cant": "all programs and all places; a line between two moves could close a layer, hide a change of height or reset a mode", "anchors": ["gcodeutils/gcoder.py:GCode._preprocess", "gcodeutils/gcoder.py:split"]}
{"id": "C116", "title": "calibrated and paused programs measure as before", "statement": "The program a temperature calibration prints, or the one written after pauses were added, is read again without an exception and has the measures of the original: the final state, bounding box, filament, duration, layers and heights.", "quantifier": "every program with numbers of at most a million, every temperature range, every list of pauses", "why_tests_cant": "all programs and options; what is inserted depends on the heights, and the second reading starts from what was written", "anchors": ["gcodeutils/gcode_tempcal.py:GCodeTempGradient", "gcodeutils/visit/pause_at_layer.py:PauseAtLayer", "gcodeutils/gcoder.py:GCode._preprocess"]}
{"id": "C117", "title": "the order of the filters does not matter", "statement": "Translating a program and converting it to relative extrusion give the same program in either order, and so do a translation along X and one along Y, which together are the translation along both.", "quantifier": "every program, every translation", "why_tests_cant": "all programs, with any use of G90, G91, G92, M82 and M83; each pass rewrites the lines the other one reads", "anchors": ["gcodeutils/filter/translate.py:GCodeXYTranslateFilter", "gcodeutils/filter/relative_extrusion.py:GCodeToRelativeExtrusionFilter", "gcodeutils/filter/filter.py:GCodeFilter"]}
{"id": "C118", "title": "arcs are run at the speed of the moves they replace", "statement": "After arc optimisation every move is run at the speed it was run at before: the feed rate of an arc is that of each of the moves it replaces, the other lines keep theirs, and so does what follows.", "quantifier": "every program, every row of moves replaced", "why_tests_cant": "all programs: the feed rate of a move is set by some earlier line, and the F word of an arc also acts on everything behind it", "anchors": ["gcodeutils/filter/arc_optimizer.py:GCodeArcOptimizerFilter", "gcodeutils/gcoder.py:GCode._preprocess"]}
{"id": "C119", "title": "optimised programs can be read again", "statement": "What is written after arc optimisation can be loaded without an exception, and each line is read as it was written.", "quantifier": "every program the optimizer accepts, every home position", "why_tests_cant": "all programs; the lines generated carry computed numbers and comments that go through the tokenizer again", "anchors": ["gcodeutils/filter/arc_optimizer.py:GCodeArcOptimizerFilter.to_gcode", "gcodeutils/gcoder.py:GCode._preprocess", "gcodeutils/gcoder.py:unsplit"]}
{"id": "C120", "title": "arcs are only made of straight extruding moves", "statement": "Every line other than a straight extruding move is still there after arc optimisation, unchanged and in order; what is new is marked as generated. In particular the arcs of the original are kept.", "quantifier": "every program, every row of lines replaced", "why_tests_cant": "all programs: the queue takes up all kinds of moves and comments, and what is removed depends on the circle fit", "anchors": ["gcodeutils/filter/arc_optimizer.py:GCodeArcOptimizerFilter"]}
{"id": "C121", "title": "arcs leave the layers alone", "statement": "The program written after arc optimisation, read again, has the layers of the original: as many, at the same heights, each with its lines in order, but for one or two generated lines in the place of each row of at least eight moves. No arc reaches from one layer into the next.", "quantifier": "every program the optimizer accepts, every home position", "why_tests_cant": "all programs: a row is collected across comments, changes of mode and height, and the second reading finds the layers from what was written", "anchors": ["gcodeutils/filter/arc_optimizer.py:GCodeArcOptimizerFilter", "gcodeutils/gcoder.py:GCode._preprocess"]}
{"id": "C122", "title": "optimising twice is optimising once", "statement": "Running the arc optimiser on its own output changes nothing: a program in which no arc was found is left alone, and the arcs of the first pass stay as they are.", "quantifier": "every program the optimizer accepts", "why_tests_cant": "all programs: the second pass reads back rounded numbers and generated lines, and fits circles to what is left", "anchors": ["gcodeutils/filter/arc_optimizer.py:GCodeArcOptimizerFilter", "gcodeutils/gcoder.py:GCode._preprocess"]}
{"id": "C123", "title": "measuring a program with arcs", "statement": "A program optimised for arcs, written and read again, reports the bounding box of the original, up to the rounding of a written coordinate.", "quantifier": "every program that prints", "why_tests_cant": "The box is folded over the moves that remain; which ones remain depends on every circle found in the program.", "anchors": ["gcodeutils/filter/arc_optimizer.py:GCodeArcOptimizerFilter", "gcodeutils/gcoder.py:GCode._preprocess"]}
{"id": "C124", "title": "lines and layers counted from the end", "statement": "Line and layer numbers may count from the end, as everywhere in Python: line -1 is found in the layer where the last line is, layer -1 can be prepended to and rewritten like the last layer, and a number out of range on either side raises IndexError.", "quantifier": "every program, loaded and edited any number of times, every number", "why_tests_cant": "all edit histories and all numbers: the layer tables and the list of layers are indexed and searched in different ways", "anchors": ["gcodeutils/gcoder.py:GCode.idxs", "gcodeutils/gcoder.py:GCode.prepend_to_layer", "gcodeutils/gcoder.py:GCode.rewrite_layer"]}
{"id": "C125", "title": "edits of layers compose", "statement": "Edits of different layers can be made in either order, with the same result. Prepending to a layer what was prepended or rewritten before is the same as doing it at once. A layer can be rewritten after any other edit of it, and nothing of that edit remains.", "quantifier": "every program, loaded and edited any number of times, every layer, all lists of commands", "why_tests_cant": "all edit histories: each edit shifts the tables in which the next one looks for its layer", "anchors": ["gcodeutils/gcoder.py:GCode.prepend_to_layer", "gcodeutils/gcoder.py:GCode.rewrite_layer"]}
{"id": "C126", "title": "commands tracked without being stored", "statement": "A command appended with store=False moves the tracked machine exactly as a stored one does, fails when that one would and returns the same line, but leaves the program alone: its lines, layers, tables and measures. After any mixture of stored and unstored commands the machine is where it would be after loading all of them as one program, and the program holds the stored ones, in order.", "quantifier": "every program, every sequence of commands, every choice of which are stored", "why_tests_cant": "all sessions: each command is understood in the state all earlier ones left, stored or not", "anchors": ["gcodeutils/gcoder.py:GCode.append", "gcodeutils/gcoder.py:GCode._preprocess"]}
{"id": "C127", "title": "the tool of a move is the one last selected", "statement": "Every move of a loaded program is noted with the tool of the last T command before it, tool 0 if there was none, whatever else is between them; after loading, the current tool is the last one selected.", "quantifier": "every program that can be loaded, every move in it", "why_tests_cant": "all programs: the tool is carried through every other command, of any kind and number", "anchors": ["gcodeutils/gcoder.py:GCode._preprocess", "gcodeutils/gcoder.py:GCode.current_tool"]}
{"id": "C128", "title": "the estimated duration counts every move", "statement": "Every move that covers a distance adds time to the estimated duration of a program, whether it is straight or an arc; making arcs of straight moves, writing the program and reading it again does not shorten its estimated duration by more than the shortened path explains.", "quantifier": "every program with or without arcs, every program after arc optimisation", "why_tests_cant": "all programs: whether a move is timed depends on its kind, not on anything a test of one duration shows", "anchors": ["gcodeutils/gcoder.py:GCode._preprocess", "gcodeutils/filter/arc_optimizer.py:GCodeArcOptimizerFilter"]}
{"id": "C129", "title": "waiting takes its time", "statement": "Each G4 command adds the time it names to the estimated duration of the program, and nothing else does it change: the duration is that of the program without its G4 commands plus the times they name, in whichever way G-code allows a time to be written.", "quantifier": "every program, any number of G4 commands at any places", "why_tests_cant": "all programs: the estimate of a move depends on the moves before it, through any number of commands between them", "anchors": ["gcodeutils/gcoder.py:GCode._preprocess", "gcodeutils/gcoder.py:find_specific_code"]}
{"id": "C130", "title": "the home position only changes where the head is", "statement": "Loading a program with another home position changes nothing at all if the program never homes. If it does, only positions in the plane change: the layers, their texts, heights and durations, the height of the part, the estimated duration and the filament length are the same.", "quantifier": "every program, every two home positions", "why_tests_cant": "all programs: a position that homing sets is carried through every later relative move and rebasing", "anchors": ["gcodeutils/gcoder.py:GCode.home_pos", "gcodeutils/gcoder.py:GCode._preprocess", "gcodeutils/gcoder.py:GCode.prepare"]}
{"id": "C131", "title": "equal programs do the same", "statement": "Two programs that compare equal, in either order, leave the machine in the same state, up to the tolerance of the comparison, give the printer the same temperatures and delays, and have the same size, duration and filament length; how their lines are written does not matter.", "quantifier": "every two programs, whatever their comments, line numbers, letter cases and spellings of numbers", "why_tests_cant": "all pairs of programs: a difference the comparison misses shows up only in what later commands make of it", "anchors": ["gcodeutils/gcoder.py:GCode.__eq__", "gcodeutils/gcoder.py:PyLine.__eq__", "gcodeutils/gcoder.py:GCode._preprocess"]}
