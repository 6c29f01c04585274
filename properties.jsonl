{"id": "C01", "title": "combine_versions is the pointwise join of two requirement pairs", "statement": "For two-element requirement lists of version tuples, ints or None, combine_versions returns, for each of the two major versions independently, None (incompatible) when either side is None and otherwise the larger of the two versions in tuple order; it never looks at anything but the two inputs and the ignore_incomp setting.", "quantifier": "all pairs of requirement lists, all configurations", "why_tests_cant": "The input space is every pair of versions; tests sample a few dozen.", "anchors": ["vermin/utility.py:combine_versions"]}
{"id": "C02", "title": "combine_versions rejects exactly the py2-only / py3-only clash", "statement": "With incompatibilities not ignored, combine_versions raises InvalidVersionException exactly when one argument is compatible with py2 only and the other with py3 only; with them ignored it never raises. The decision is symmetric in the arguments.", "quantifier": "all pairs of requirement lists, both settings of ignore_incomp", "why_tests_cant": "An iff over all inputs.", "anchors": ["vermin/utility.py:combine_versions", "vermin/utility.py:__handle_incomp_versions"]}
{"id": "C03", "title": "Combining requirements is order-independent and never lowers one", "statement": "When incompatibilities are ignored, combining any finite collection of requirements gives the same result for every order and grouping, duplicates change nothing, and the result is the least requirement that satisfies all of them (a least upper bound where None is the top).", "quantifier": "all finite lists of requirements, all permutations of them", "why_tests_cant": "Permutations of unbounded lists.", "anchors": ["vermin/utility.py:combine_versions", "vermin/processor.py:Processor.process"]}
{"id": "C04", "title": "Float versions X.Y become the tuple (X, Y)", "statement": "combine_versions accepts a float X.Y (one decimal digit) wherever a tuple is accepted and treats it as the version (X, Y).", "quantifier": "all one-decimal floats from 0.0 up", "why_tests_cant": "The conversion is binary floating point: whether it truncates correctly depends on the bits of every single value.", "anchors": ["vermin/utility.py:float_version", "vermin/utility.py:combine_versions"]}
{"id": "C05", "title": "Version strings identify the versions they print", "statement": "version_strings prints each entry as ~N for 'unknown', !N for 'incompatible' (N being the Python major for that position) and X.Y otherwise, joined by the separator; two requirement pairs that print the same are the same pair.", "quantifier": "all requirement pairs and separators that cannot occur in a version", "why_tests_cant": "Injectivity is a statement about all pairs of inputs.", "anchors": ["vermin/utility.py:version_strings", "vermin/utility.py:dotted_name"]}
{"id": "C06", "title": "Targets parse to exactly what was written, and nothing else is accepted", "statement": "parse_target accepts X, X.Y or X,Y with an optional trailing '-' and yields (no '-', (X, Y)) with Y=0 when absent; whatever it accepts lies in [2.0, 4.0); more than two components, negative or non-numeric components, and out-of-range versions are rejected. Printing a target and parsing it again gives the same target.", "quantifier": "all strings", "why_tests_cant": "The input is an arbitrary string.", "anchors": ["vermin/utility.py:parse_target", "vermin/config.py:Config.add_target"]}
{"id": "C07", "title": "Target comparison accepts exactly the requirements that satisfy every target", "statement": "compare_requirements answers yes exactly when there is at least one target and, for every target major, the requirements contain that major and it equals the target (exact) or does not exceed it ('-' targets).", "quantifier": "all requirement lists with at most one entry per major, all target lists with at most one entry per major", "why_tests_cant": "iff over unbounded inputs.", "anchors": ["vermin/utility.py:compare_requirements"]}
{"id": "C08", "title": "dotted_name joins the names it is given, in order, without the None entries", "statement": "dotted_name of a list of strings, ints, None and lists of names is the '.'-join of the flattened non-None names; nesting one level deep does not change the result and a plain string is returned untouched.", "quantifier": "all nested name lists", "why_tests_cant": "Unbounded lists.", "anchors": ["vermin/utility.py:dotted_name"]}
{"id": "C09", "title": "Output ordering keys sort by line, then column", "statement": "Lines rendered as 'L<line>[ C<col>]: text' or 'path:<line>:<col>:...' sort by line number first and by column second, whatever the text is.", "quantifier": "all pairs of rendered lines with any line, column and text", "why_tests_cant": "Pairs of arbitrary lines and columns.", "anchors": ["vermin/utility.py:sort_line_column", "vermin/utility.py:sort_line_column_parsable", "vermin/utility.py:bounded_str_hash"]}
{"id": "C10", "title": "Lines at the same position get a reproducible order", "statement": "Two different output lines at the same line and column get different sort keys, so that their printed order does not depend on Python's randomised set order.", "quantifier": "all pairs of different texts", "why_tests_cant": "Collisions of a hash over all strings.", "anchors": ["vermin/utility.py:bounded_str_hash", "vermin/utility.py:sort_line_column"]}
{"id": "C11", "title": "Whitespace removal removes exactly the whitespace", "statement": "remove_whitespace deletes every ASCII whitespace character (and every extra character asked for) and keeps all other characters in order; applying it twice changes nothing.", "quantifier": "all strings", "why_tests_cant": "All strings.", "anchors": ["vermin/utility.py:remove_whitespace"]}
{"id": "C12", "title": "Help listings align", "statement": "format_title_descs prints one line per description line, every title column is padded to the same width, and continuation lines are indented to the description column.", "quantifier": "all lists of titles and descriptions whose titles are among the given titles", "why_tests_cant": "Unbounded tables.", "anchors": ["vermin/utility.py:format_title_descs"]}
{"id": "C13", "title": "Every rule states a meaningful requirement under every backport selection", "statement": "For every set of enabled backports, every entry of every rule table has a py2 part that is absent, unknown or 2.x, a py3 part that is absent, unknown or 3.x, and is never absent for both majors; no table has two entries for the same key.", "quantifier": "all sets of enabled backports, all rules", "why_tests_cant": "2^16 backport selections times 3796 rules, and rule expressions that depend on them.", "anchors": ["vermin/rules.py:MOD_REQS", "vermin/rules.py:MOD_MEM_REQS", "vermin/rules.py:KWARGS_REQS", "vermin/rules.py:bpv"]}
{"id": "C14", "title": "A backport replaces requirements by those of the newest enabled variant", "statement": "The requirement of a backportable module is the one of its unversioned backport when that is enabled, otherwise of the highest enabled versioned variant, otherwise the default; backports of other modules have no influence.", "quantifier": "all sets of enabled backports, all module names", "why_tests_cant": "All subsets.", "anchors": ["vermin/rules.py:bpv", "vermin/backports.py:Backports.expand_versions", "vermin/backports.py:Backports.version_filter"]}
{"id": "C15", "title": "Enabling a backport never raises a requirement", "statement": "Enabling one more backport never makes the requirement of any rule stricter (for any major).", "quantifier": "all backport sets, all single additions, all rules", "why_tests_cant": "All subsets times all rules.", "anchors": ["vermin/rules.py:MOD_REQS", "vermin/rules.py:MOD_MEM_REQS", "vermin/rules.py:KWARGS_REQS", "vermin/backports.py:BACKPORTS"]}
{"id": "C16", "title": "A configuration holds at most two targets, in version order", "statement": "After any sequence of add_target (string, tuple or pair form), clear_targets and other configuration calls, targets() has at most two entries, they are sorted by version, each was given by a successful add since the last clear, and a rejected add leaves the configuration unchanged.", "quantifier": "all histories of configuration calls", "why_tests_cant": "Histories.", "anchors": ["vermin/config.py:Config.add_target", "vermin/config.py:Config.clear_targets", "vermin/config.py:Config.targets"]}
{"id": "C17", "title": "Exclusions are exactly the names added since the last clear", "statement": "After any history, is_excluded(name) holds exactly when name was added after the last clear_exclusions; the kwarg, codecs error handler and codecs encoding forms are the exclusions spelled 'f(k)', 'ceh=n', 'ce=n'; exclusions() lists them sorted and without duplicates.", "quantifier": "all histories of configuration calls, all names", "why_tests_cant": "Histories.", "anchors": ["vermin/config.py:Config.add_exclusion", "vermin/config.py:Config.is_excluded", "vermin/config.py:Config.is_excluded_kwarg", "vermin/config.py:Config.exclusions"]}
{"id": "C18", "title": "Only known backports and features can be enabled, and processes stay positive", "statement": "After any history, every enabled backport and feature is one that vermin knows, unknown names are refused without effect, and the process count is positive.", "quantifier": "all histories of configuration calls", "why_tests_cant": "Histories.", "anchors": ["vermin/config.py:Config.add_backport", "vermin/config.py:Config.enable_feature", "vermin/config.py:Config.set_processes"]}
{"id": "C19", "title": "The parsable format always runs with its required settings", "statement": "Whenever a run uses the parsable format, its verbosity is at least 3, incompatibilities are ignored and tips are off, however the format was selected (command line or config file) and whatever other options were given.", "quantifier": "all command lines and config files", "why_tests_cant": "All option combinations and orders.", "anchors": ["vermin/formats/parsable_format.py:ParsableFormat.set_config", "vermin/arguments.py:Arguments.parse", "vermin/config.py:Config.override_from"]}
{"id": "C20", "title": "override_from makes a configuration equal to, and independent of, another one", "statement": "After a.override_from(b) every getter of a answers like b's, and later calls on a do not change what b answers.", "quantifier": "all pairs of configurations and all later histories", "why_tests_cant": "Aliasing shows only for particular later mutations.", "anchors": ["vermin/config.py:Config.override_from"]}
{"id": "C21", "title": "Config files set exactly what they say", "statement": "For every option map, parse_fp yields a configuration with each boolean read as such (an unreadable boolean falls back to the default), each list option split into lines, each number non-negative, and fails on unknown backports, features, formats, invalid targets or negative numbers.", "quantifier": "all option maps of the vermin section", "why_tests_cant": "All option maps.", "anchors": ["vermin/config.py:Config.parse_fp", "vermin/config.py:Config.parse_file"]}
{"id": "C22", "title": "The nearest config file inside the project is used", "statement": "detect_config_file returns the first candidate with a vermin section, searching file names in the documented order in the start folder and then its parents, never looks above a folder holding a project boundary marker, and always terminates.", "quantifier": "all folder trees, all start folders of any depth", "why_tests_cant": "Unbounded trees.", "anchors": ["vermin/config.py:Config.detect_config_file"]}
{"id": "C23", "title": "Options before paths are all applied in order and the remaining arguments are the paths", "statement": "For a command line of options followed by paths that do not look like options, every option takes effect in order (later ones override earlier ones, clearing options clear), and the paths analysed are exactly the arguments after the options.", "quantifier": "all lists of options with any operands, all lists of paths", "why_tests_cant": "Unbounded command lines.", "anchors": ["vermin/arguments.py:Arguments.parse"]}
{"id": "C24", "title": "Every path given on the command line is analysed", "statement": "Every argument that is not an option or an option's value is treated as a path, wherever it stands.", "quantifier": "all command lines", "why_tests_cant": "All orders of arguments.", "anchors": ["vermin/arguments.py:Arguments.parse"]}
{"id": "C25", "title": "Violations mode and quiet/verbose rules are enforced", "statement": "Parsing succeeds in violations mode only with at least one target and then the verbosity is at least 2; quiet together with verbosity above zero is refused unless in violations mode; --versions is ignored for the parsable format.", "quantifier": "all command lines and starting configurations", "why_tests_cant": "All option combinations.", "anchors": ["vermin/arguments.py:Arguments.parse"]}
{"id": "C26", "title": "Config file precedence", "statement": "A config file given by argument is used instead of a detected one; --no-config-file disables detection and is refused together with --config-file; a config that fails to load stops the run with code 1; options on the command line override the config file.", "quantifier": "all command lines, all detection outcomes, all file contents", "why_tests_cant": "All combinations.", "anchors": ["vermin/arguments.py:Arguments.parse"]}
{"id": "C27", "title": "--no-config-file protects from broken config files", "statement": "With --no-config-file, or --help, no configuration file found on disk can make the run fail.", "quantifier": "all config file contents", "why_tests_cant": "All file contents.", "anchors": ["vermin/arguments.py:Arguments.parse", "vermin/config.py:Config.detect_config_file"]}
{"id": "C28", "title": "Path detection finds exactly the files it should", "statement": "detect_paths accepts a path exactly when it is a regular file reachable from a given path through folders that are not excluded (regex, ignored characters, hidden names, symlinked folders below the top level when not asked for), and it is either given directly or looks like Python.", "quantifier": "all file systems, all path lists, all settings", "why_tests_cant": "All trees.", "anchors": ["vermin/detection.py:detect_paths", "vermin/detection.py:detect_paths_incremental", "vermin/detection.py:stat_path"]}
{"id": "C29", "title": "The set of analysed files does not depend on scheduling", "statement": "The list of files a run analyses is sorted and duplicate-free, and is the same for every directory listing order, every order and repetition of the given paths and every number of processes and completion order.", "quantifier": "all file systems, listing orders, process counts and completion orders", "why_tests_cant": "Schedules.", "anchors": ["vermin/detection.py:detect_paths", "vermin/main.py:main"]}
{"id": "C30", "title": "Directly given hidden or relative paths are analysed", "statement": "A file or folder given directly on the command line is analysed also when its name begins with a dot, and giving '.' analyses the current folder, whether or not paths are made absolute.", "quantifier": "all paths, both settings of make-paths-absolute", "why_tests_cant": "All paths and settings.", "anchors": ["vermin/detection.py:detect_paths_incremental"]}
{"id": "C31", "title": "Python files are recognised by extension, then by magic line", "statement": "probably_python_file says yes for the definite Python extensions in any letter case without reading the file, no for the known non-Python extensions, and otherwise yes exactly when one of the first ten lines begins with '#!' and mentions python; unreadable files are no.", "quantifier": "all paths and file contents", "why_tests_cant": "All names and contents.", "anchors": ["vermin/detection.py:probably_python_file"]}
{"id": "C32", "title": "novm comments exclude exactly their line", "statement": "A comment with a segment starting with novm or novermin excludes the line it ends (the first line of the triple-quoted string it follows, if any) or, when alone on its line, the next line; no other line is excluded.", "quantifier": "all token streams", "why_tests_cant": "All token streams.", "anchors": ["vermin/parser.py:Parser.comments"]}
{"id": "C33", "title": "Unparsable files get the documented verdict", "statement": "A source that does not parse is reported as 2.0/!3 for a Python-2 print statement, !2/3.12 for a type alias statement, otherwise unknown for both, with the running major marked incompatible in pessimistic mode; its node is absent and no line is excluded.", "quantifier": "all syntax errors and configurations", "why_tests_cant": "All messages.", "anchors": ["vermin/parser.py:Parser.detect"]}
{"id": "C34", "title": "The verdict does not depend on how much is printed", "statement": "The minimum versions of a source, and whether they conflict, are the same for every verbosity, format, quietness, violations mode, targets, dump and tips setting, as long as exclusions, backports, features, annotation evaluation and ignore-incompatible agree.", "quantifier": "all sources, all pairs of configurations", "why_tests_cant": "All programs and pairs of configurations.", "anchors": ["vermin/source_visitor.py:SourceVisitor.minimum_versions", "vermin/source_visitor.py:SourceVisitor.__verbose_print"]}
{"id": "C35", "title": "The verdict of a file is the join of the rules it triggers", "statement": "minimum_versions returns, per major, None when some triggered rule rules the major out and otherwise the largest version any triggered rule asks for (unknown if none does); without ignoring incompatibilities it raises exactly when one triggered rule is py2-only and another py3-only.", "quantifier": "all visitor states", "why_tests_cant": "All rule combinations and orders.", "anchors": ["vermin/source_visitor.py:SourceVisitor.minimum_versions", "vermin/source_visitor.py:SourceVisitor.__add_versions_entity"]}
{"id": "C36", "title": "Each language feature has its documented minimum", "statement": "A source in which a language construct is detected gets at least the versions documented for the construct, and a source in which nothing is detected is unknown for both majors.", "quantifier": "all sources", "why_tests_cant": "All programs.", "anchors": ["vermin/source_visitor.py:SourceVisitor.minimum_versions"]}
{"id": "C37", "title": "Reported features are really there", "statement": "A language feature is only reported for a source whose syntax tree contains a construct of that feature.", "quantifier": "all syntax trees, all configurations", "why_tests_cant": "All programs.", "anchors": ["vermin/source_visitor.py:SourceVisitor.visit_*"]}
{"id": "C38", "title": "Features that are there are reported", "statement": "A construct anywhere in the syntax tree that is not under an excluded line is reported.", "quantifier": "all syntax trees", "why_tests_cant": "All programs and nesting depths.", "anchors": ["vermin/source_visitor.py:SourceVisitor.generic_visit", "vermin/source_visitor.py:SourceVisitor.visit_*"]}
{"id": "C39", "title": "Excluded names never influence the verdict", "statement": "A module, member, keyword argument, codecs error handler or encoding that is excluded never appears among the detected ones, in any source.", "quantifier": "all sources, all exclusion sets", "why_tests_cant": "All programs.", "anchors": ["vermin/source_visitor.py:SourceVisitor.__add_module", "vermin/source_visitor.py:SourceVisitor.__add_member", "vermin/source_visitor.py:SourceVisitor.__add_kwargs"]}
{"id": "C40", "title": "User-defined names never count as library names", "statement": "No name that the source defines at module level is reported as a library module or member, wherever the use stands relative to the definition.", "quantifier": "all sources", "why_tests_cant": "All programs and orders.", "anchors": ["vermin/source_visitor.py:SourceVisitor.__after_visit_all", "vermin/source_visitor.py:SourceVisitor.__add_user_def"]}
{"id": "C41", "title": "novm on a statement suppresses everything in it", "statement": "A compound statement, definition, assignment, call or import whose line is excluded contributes nothing: the analysis goes on as if it were not there.", "quantifier": "all sources, all excluded lines", "why_tests_cant": "All programs.", "anchors": ["vermin/source_visitor.py:SourceVisitor.__is_no_line", "vermin/source_visitor.py:SourceVisitor.visit_ClassDef"]}
{"id": "C42", "title": "Scopes are left as they were entered", "statement": "Names bound in a function, lambda, comprehension, for, with or except scope do not leak out of it, and the loop, depth and try bookkeeping is balanced over every node.", "quantifier": "all sources", "why_tests_cant": "All nestings.", "anchors": ["vermin/source_visitor.py:SourceVisitor.__handle_FunctionDef", "vermin/source_visitor.py:SourceVisitor.__handle_for", "vermin/source_visitor.py:SourceVisitor.__handle_Try"]}
{"id": "C43", "title": "Keyword arguments are attributed to their own call", "statement": "A keyword argument of a call is looked up for that call's function, whatever calls are nested in its arguments.", "quantifier": "all call nestings", "why_tests_cant": "All nestings.", "anchors": ["vermin/source_visitor.py:SourceVisitor.visit_Call", "vermin/source_visitor.py:SourceVisitor.__pop_function_name", "vermin/source_visitor.py:SourceVisitor.visit_keyword"]}
{"id": "C44", "title": "Analysis of a parsed file never crashes", "statement": "For every syntax tree the Python parser can produce, the visitor finishes with versions or with an incompatibility, never with another exception.", "quantifier": "all syntax trees", "why_tests_cant": "Crashes hide in rare constant types at rare places.", "anchors": ["vermin/source_visitor.py:SourceVisitor.tour", "vermin/source_visitor.py:SourceVisitor.__get_attribute_name", "vermin/source_visitor.py:SourceVisitor.visit_Call"]}
{"id": "C45", "title": "Asking twice gives the same answer", "statement": "Calling minimum_versions again on the same visitor (as detect does) returns the same versions.", "quantifier": "all visitor states", "why_tests_cant": "All states.", "anchors": ["vermin/source_visitor.py:SourceVisitor.minimum_versions", "vermin/detection.py:detect"]}
{"id": "C46", "title": "Codecs encodings are matched by name", "statement": "A codecs encoding triggers a rule exactly when its lower-cased name is one of the rule's names.", "quantifier": "all encoding strings", "why_tests_cant": "All strings.", "anchors": ["vermin/source_visitor.py:SourceVisitor.minimum_versions", "vermin/rules.py:CODECS_ENCODINGS"]}
{"id": "C47", "title": "Parsable lines can be parsed back", "statement": "A parsable output line of a path without ':' and newline splits at ':' into path, line, column, py2, py3 and feature, each equal to what was formatted, and never contains a newline.", "quantifier": "all paths without ':' or newline, all lines, columns, versions and texts", "why_tests_cant": "All field values.", "anchors": ["vermin/formats/parsable_format.py:ParsableFormat.format_output_line"]}
{"id": "C48", "title": "Default lines carry position and versions as documented", "statement": "A default-format line shows line and column only from verbosity 3 on, and ends with 'requires'/'require' and the versions when there are any.", "quantifier": "all messages and configurations", "why_tests_cant": "All values.", "anchors": ["vermin/formats/default_format.py:DefaultFormat.format_output_line"]}
{"id": "C49", "title": "Violations mode shows exactly the findings above the targets", "statement": "With --violations and one or two targets of different majors, a finding is shown exactly when for some target its version for that major is missing or exceeds the target; findings that show nothing still count for the verdict.", "quantifier": "all findings, all target pairs", "why_tests_cant": "All versions and targets.", "anchors": ["vermin/source_visitor.py:SourceVisitor.__violates_target_versions"]}
{"id": "C50", "title": "The text of a file is duplicate-free and in a fixed order", "statement": "Unless dumping nodes, the text reported for a file contains no line twice, exactly the lines produced, in sorted order, independent of the order in which they were produced.", "quantifier": "all visitor histories", "why_tests_cant": "Orders.", "anchors": ["vermin/source_visitor.py:SourceVisitor.output_text", "vermin/formats/:sort_output_lines"]}
{"id": "C51", "title": "The overall verdict is the join over the analysed files", "statement": "Without an incompatible pair of files, the processed result is per major the join of the files' versions, the version range is the sorted set of versions that occur, and backport hints, novermin use and annotation hints are the unions over the files; files that are not Python contribute nothing.", "quantifier": "all lists of file results", "why_tests_cant": "All lists.", "anchors": ["vermin/processor.py:Processor.process"]}
{"id": "C52", "title": "The processed result does not depend on process count or completion order", "statement": "For every number of worker processes and every order in which workers finish, the result and the printed output equal those of processing the files one by one in path order.", "quantifier": "all file lists, process counts and completion orders", "why_tests_cant": "Schedules.", "anchors": ["vermin/processor.py:Processor.process"]}
{"id": "C53", "title": "The verdict does not depend on file order", "statement": "The overall minimum versions are the same for every order of the files.", "quantifier": "all file lists and permutations", "why_tests_cant": "Permutations.", "anchors": ["vermin/processor.py:Processor.process"]}
{"id": "C54", "title": "Exit codes mean what the help says", "statement": "A run with valid arguments exits 0 exactly when some file was found and every target is met (or, in violations mode, nothing was detected at all); otherwise it exits 1.", "quantifier": "all runs", "why_tests_cant": "All results, targets and modes.", "anchors": ["vermin/main.py:main", "vermin/utility.py:compare_requirements"]}
{"id": "C55", "title": "The final report names the right majors", "statement": "'~N' and '!N' in the final report and the 'not enough evidence' note always name the major they stand for, and the 'no known reason' note is printed when nothing was detected.", "quantifier": "all runs", "why_tests_cant": "All combinations of results.", "anchors": ["vermin/main.py:main", "vermin/utility.py:version_strings"]}
{"id": "C56", "title": "Quiet runs print nothing but violations", "statement": "With quiet and the default format, no output is printed beyond what violations mode shows.", "quantifier": "all runs", "why_tests_cant": "All runs.", "anchors": ["vermin/printing.py", "vermin/main.py:main", "vermin/formats/default_format.py"]}
{"id": "C57", "title": "End to end: the reported minimum is the join of all triggered rules of all analysed files", "statement": "For a run that reports no incompatibility, the reported minimum versions are, per major, the join of every rule triggered in any analysed file.", "quantifier": "all file systems and sources", "why_tests_cant": "Whole-run composition.", "anchors": ["vermin/main.py:main", "vermin/processor.py:Processor.process", "vermin/source_visitor.py:SourceVisitor.minimum_versions"]}
{"id": "C58", "title": "Interrupted or unreadable files do not break the aggregation", "statement": "A file whose reading, parsing or visiting is interrupted or fails never changes the result computed from the other files.", "quantifier": "all crash points and file lists", "why_tests_cant": "Crash points.", "anchors": ["vermin/processor.py:Processor.process_individual", "vermin/processor.py:Processor.process"]}
{"id": "C59", "title": "Modules and members are only reported because the source uses them", "statement": "A module is only reported for a source that imports it or has an attribute ending with its name; a member only when it has a rule and the source imports, calls, raises or catches it, has an attribute ending with its name, or has an attribute with the name of a variable it assigns.", "quantifier": "all syntax trees, all configurations", "why_tests_cant": "All programs.", "anchors": ["vermin/source_visitor.py:SourceVisitor.visit_Import", "vermin/source_visitor.py:SourceVisitor.visit_ImportFrom", "vermin/source_visitor.py:SourceVisitor.visit_Attribute", "vermin/source_visitor.py:SourceVisitor.visit_Call"]}
{"id": "C60", "title": "Directives, type codes, codec arguments and decorators come from the source", "statement": "A date directive is only reported when a literal argument of a strftime or strptime call has it, a bytes directive only when a bytes literal has it, an array type code only when it is a literal argument of a call of array, a codec error handler or encoding only when it is a literal in the right place of a call of a codecs function, and a decorator only when it has a rule and some function is decorated.", "quantifier": "all syntax trees, all configurations", "why_tests_cant": "All programs and all texts in them.", "anchors": ["vermin/source_visitor.py:SourceVisitor.visit_Call", "vermin/source_visitor.py:SourceVisitor.__add_strftime_directive", "vermin/source_visitor.py:SourceVisitor.__check_codecs_function", "vermin/source_visitor.py:SourceVisitor.visit_FunctionDef"]}
{"id": "C61", "title": "Uses of the library in the source raise the minimum", "statement": "Every module that the source imports, every library function it calls by name or dotted name, every exception it raises or catches, every keyword argument of a library function that is called by name, and every date or byte directive, array type code, codec argument and caching decorator in it, under whatever name an import before has given the module or function, raises the minimum versions of the source, and of any run with it, to at least what the rules say, unless the name is excluded, defined in the source, or the line is excluded.", "quantifier": "all syntax trees, all configurations, all runs", "why_tests_cant": "All programs, nestings and texts in them.", "anchors": ["vermin/source_visitor.py:SourceVisitor.generic_visit", "vermin/source_visitor.py:SourceVisitor.visit_Import", "vermin/source_visitor.py:SourceVisitor.visit_ImportFrom", "vermin/source_visitor.py:SourceVisitor.visit_Attribute", "vermin/source_visitor.py:SourceVisitor.visit_Call", "vermin/source_visitor.py:SourceVisitor.minimum_versions"]}
{"id": "C62", "title": "A setting keeps the value last given", "statement": "After any history of calls on a Config, each setting has the value that the last call about it gave: calls about other settings leave it as it is, a reset gives the defaults, and the exclusion patterns are those accepted since they were last cleared, reset or replaced. Only the parsable format is about other settings as well: verbosity, incompatible versions and tips.", "quantifier": "all histories of calls, all settings, all values", "why_tests_cant": "Histories of any length and order.", "anchors": ["vermin/config.py:Config"]}
{"id": "C63", "title": "The printed lines explain the verdict", "statement": "With findings printed at full verbosity (-vvv, and always in the parsable format), every line about a source that names versions names those of a requirement the source triggers, and the file's minimum versions are exactly the least at least as strict as all requirements named: the summary line follows from the lines above it. When only violations are printed, the verdict is above a target exactly when some printed line is about a requirement above that target.", "quantifier": "all syntax trees, all sources of findings, all configurations at full verbosity, all paths without a colon or newline", "why_tests_cant": "Every combination of findings in every tree; a finding counted without its line, or printed with other versions than it counts for, shows only on the sources that have it.", "anchors": ["vermin/source_visitor.py:SourceVisitor.minimum_versions", "vermin/source_visitor.py:SourceVisitor.__vvprint", "vermin/formats/parsable_format.py:ParsableFormat"]}
{"id": "C64", "title": "The positions printed are those of what is told of", "statement": "With findings printed at full verbosity (-vvv, and always in the parsable format), the position in front of a finding is a position in the source. That of a library finding (module, member, decorator, strftime and bytes directive, array typecode, codecs error handler and encoding) is a line on which the source uses that text, and every library finding that is to be shown has such a line.", "quantifier": "all syntax trees in which the parser placed the nodes, all configurations at full verbosity that do not also dump the nodes, all findings", "why_tests_cant": "Positions are kept by text while the whole tree is visited; a stale or mixed-up position shows only where two uses meet in one source.", "anchors": ["vermin/source_visitor.py:SourceVisitor.__add_line_col", "vermin/source_visitor.py:SourceVisitor.__verbose_print", "vermin/source_visitor.py:SourceVisitor.generic_visit"]}
{"id": "C65", "title": "Config files are read as they are written", "statement": "A config file with sections, options, comments, blank lines and values over several lines, in either line-end convention, gives the configuration its vermin section says, whatever other sections it has; sections named DEFAULT give what the vermin section leaves out; a file without the vermin section gives none. A configuration written out to such a file is read back with every setting the same, and the file is the one that is detected when none is nearer. A file that is detected can be read. Blank lines, indentation and percent signs do not change what is read.", "quantifier": "all texts of the INI grammar, all configurations whose entries fit on a line, all folders and files around", "why_tests_cant": "The INI reader keeps state across lines (section, option, indentation); tests read a handful of files with one option each.", "anchors": ["vermin/config.py:Config.parse_fp", "vermin/config.py:Config.parse_file", "vermin/config.py:Config.detect_config_file"]}
{"id": "C66", "title": "Excluding more never adds a finding and never raises a verdict", "statement": "When the same source is analysed with the same settings but more exclusions, everything reported then was reported before, a visit that ended well still does, a source or run that had a verdict still has one, and it is nowhere stricter. Constructs that exclusions are not about are found as before; so is everything whose name is not excluded.", "quantifier": "all sources (syntax trees), all configurations and larger sets of exclusions, all runs over any number of files", "why_tests_cant": "Excluding a name changes what later statements see (modules known so far, user definitions); tests exclude one name in one short source.", "anchors": ["vermin/source_visitor.py:SourceVisitor.__add_module", "vermin/source_visitor.py:SourceVisitor.__add_member", "vermin/source_visitor.py:SourceVisitor.__add_kwargs", "vermin/source_visitor.py:SourceVisitor.visit_Attribute", "vermin/source_visitor.py:SourceVisitor.visit_keyword", "vermin/config.py:Config.add_exclusion"]}
{"id": "C67", "title": "Laxer settings never raise a verdict", "statement": "When the same source is analysed with more backports, fewer features and more exclusions, everything found then was found before, and only what the switched off features or the exclusions are about is lost; a source or run that had a verdict still has one, and it is nowhere stricter.", "quantifier": "all sources (syntax trees), all pairs of configurations so related, all runs over any number of files", "why_tests_cant": "The settings interact with state kept during the visit and with the choice among rules; tests set one of them for one short source.", "anchors": ["vermin/source_visitor.py:SourceVisitor", "vermin/rules.py:MOD_REQS", "vermin/backports.py:Backports", "vermin/features.py:Features", "vermin/utility.py:bpv"]}
{"id": "C68", "title": "A setting means the same in a config file and as an option", "statement": "For every configuration a config file can hold, a run with the file named by --config-file prints the same text and ends with the same code as a run in which each setting is given by its option instead, whatever further arguments follow; a run that finds the file itself differs only in the line that tells so.", "quantifier": "all configurations, all file systems, sources and environments, all further arguments", "why_tests_cant": "Files and options are read by separate code with separate defaults, order and checks; tests compare neither whole runs nor combinations of settings.", "anchors": ["vermin/arguments.py:Arguments.parse", "vermin/config.py:Config.parse_data", "vermin/config.py:Config.override_from", "vermin/main.py:main", "vermin/formats/parsable_format.py:ParsableFormat.set_config"]}
{"id": "C69", "title": "A refused command line is told why", "statement": "A command line that is refused ends with code 1, and the last lines printed give a reason that is true of that command line: the option without its operand, the value that is no target or no number, the third target, the unknown name with the backports that differ only in their version, the fault of the config file in use, or the settings that exclude each other. An accepted command line is told nothing but which exclusion files could not be read. A run that ends with another code than 0 is silent only in quiet mode.", "quantifier": "all command lines, all config files and their contents, all starting configurations, all file systems", "why_tests_cant": "The faults combine with each other and with settings of config files; tests look at single faults and mostly at the exit code only.", "anchors": ["vermin/arguments.py:Arguments.parse", "vermin/config.py:Config.parse_file", "vermin/config.py:Config.parse_fp", "vermin/config.py:Config.add_target", "vermin/backports.py:Backports.expand_versions", "vermin/main.py:main"]}
{"id": "C70", "title": "The help text and the program agree", "statement": "What --help prints tells the truth: every option in it is taken as an option, nothing else is, the options marked as default change nothing and all others change something, the listed formats, backports and features are exactly the names that are accepted, files with the extensions said to be scanned or ignored are, the config file names and project boundaries are those looked for, and the default number of processes is the one used.", "quantifier": "all command lines and positions in them, all names, all file systems, all program names and numbers of cores", "why_tests_cant": "The text is written by hand beside the parser; only a comparison with every argument and every name shows where the two part.", "anchors": ["vermin/arguments.py:Arguments.print_usage", "vermin/arguments.py:Arguments.parse", "vermin/detection.py:probably_python_file", "vermin/config.py:Config.detect_config_file"]}
{"id": "C71", "title": "The parsable output of a run can be read line by line", "statement": "With the parsable format the whole output of a run is lines of six fields: for each file in order its findings, then one line with the versions of the file, and at the end one line with the versions of the run. The fields can be read in one way only, the findings of a file add up to its versions and the versions of the files to those of the run; files with paths that would break a line are not analysed.", "quantifier": "all command lines with the format option, all file systems and sources, any number of files, all schedules of the workers", "why_tests_cant": "Whether a text can be taken apart again depends on every path, message and source line in it; tests compare a few lines.", "anchors": ["vermin/formats/parsable_format.py:ParsableFormat", "vermin/processor.py:Processor.process", "vermin/main.py:main", "vermin/detection.py:detect_paths", "vermin/source_visitor.py:SourceVisitor.output_text", "vermin/parser.py:Parser.detect"]}
{"id": "C72", "title": "Tips are true, and taking one does what it says", "statement": "A tip is printed exactly when what it says is so: annotations might matter and are not evaluated; modules are in use that have a backport which was not asked for, named once each and in order; no file has a line that is left out by a comment though comments are read. The options a tip names are understood by the command line and change one setting. With the backports named the verdict gets no stricter and the tip is gone; with comments not read the result of the run is the same.", "quantifier": "all configurations, files, sources, numbers of workers and command lines", "why_tests_cant": "Tips depend on everything found in all files and on the settings, and taking one compares two runs on the same input; tests look at single tips.", "anchors": ["vermin/main.py:main", "vermin/processor.py:Processor.process", "vermin/processor.py:process_individual", "vermin/arguments.py:Arguments.parse", "vermin/backports.py:Backports", "vermin/source_visitor.py:SourceVisitor.modules"]}
{"id": "C73", "title": "Everything a run prints in the default format", "statement": "The output of a run is, in this order: a text per exclusion file that could not be read; a line naming the config file if one was found without being asked for; from verbosity 1 on, two lines on the work to be done; for each file in order, from verbosity 1 on, its versions in a column of twelve, its path and its findings moved in, and a note if the file contradicts itself or the files before; the note on incompatible files; the tips; the minimum versions, the versions there is no evidence against, the incompatible ones, the version range if asked for, and the targets if they are not met. Each part is there exactly when it should be, says what was found, and there is nothing else. The exit code is 0 exactly if the targets are met.", "quantifier": "all command lines, configurations, config files, sets of files, sources and numbers of workers", "why_tests_cant": "The layout depends on every setting and on all files together; tests look for single lines in the output of single runs.", "anchors": ["vermin/main.py:main", "vermin/processor.py:Processor.process", "vermin/formats/default_format.py:DefaultFormat", "vermin/formats/format.py:Format", "vermin/arguments.py:Arguments.parse", "vermin/printing.py:nprint", "vermin/printing.py:vvprint"]}
{"id": "C74", "title": "The configuration of a run is a valid one", "statement": "Whatever a config file says and whatever command line is given, the configuration that comes out has at least one process; exclusions, patterns, backports and features once each; patterns that compile; backports and features that exist; at most two targets, in order and from 2.0 up to but not including 4.0. A run that starts has targets and a verbosity of 2 or more if only violations are asked for, and no verbosity if quiet otherwise. The verbosity is never negative.", "quantifier": "all config files, command lines and starting configurations", "why_tests_cant": "Both inputs are unbounded and combine in any order; tests try a few values per option.", "anchors": ["vermin/config.py:Config.parse_fp", "vermin/config.py:Config.parse_file", "vermin/config.py:Config.override_from", "vermin/config.py:Config.add_target", "vermin/config.py:Config.set_processes", "vermin/arguments.py:Arguments.parse"]}
{"id": "C75", "title": "More code and more files never lower what is required", "statement": "Putting statements behind the ones of a source never removes anything that was found in it, except modules and members whose names the added statements define; if they define none of those, a source that has a verdict with them has one without them, and it requires no more. A run over more files requires no less than one over some of them, lists no fewer versions and gives no fewer hints, whatever the numbers of processes, if the verdicts can be combined.", "quantifier": "all sources, added statements, configurations, sets of files and numbers of workers", "why_tests_cant": "The statement compares two analyses of arbitrarily large inputs; state kept between statements (scopes, aliases, open calls) could make any earlier finding depend on later code.", "anchors": ["vermin/source_visitor.py:SourceVisitor.tour", "vermin/source_visitor.py:SourceVisitor.user_defined", "vermin/source_visitor.py:SourceVisitor.minimum_versions", "vermin/processor.py:Processor.process"]}
{"id": "C76", "title": "The printed form of a configuration tells its settings", "statement": "The printed form of a configuration has exactly one line for each setting, whatever characters exclusions and patterns have in them; the lines say the values. Two configurations that print alike have the same settings, and the same settings print alike if equal sets are listed alike.", "quantifier": "all configurations, set orders, names of exclusions and patterns", "why_tests_cant": "Exclusions and patterns are arbitrary texts: quotes, backslashes, line breaks and separators in them could make two different configurations print alike.", "anchors": ["vermin/config.py:Config.__repr__", "vermin/config.py:Config.exclusions", "vermin/config.py:Config.exclusion_regex", "vermin/config.py:Config.targets"]}
{"id": "C77", "title": "Layout does not matter", "statement": "Code that is laid out differently (blanks, line breaks, columns, comments, empty lines) but has the same syntax tree gets the same verdict, the same hints or the same failure, as long as novermin comments exclude the same parts; comments and empty lines put on top of a file move the excluded lines down by as many lines and change nothing else in its result, in what the API answers and in the summary of a run over any files.", "quantifier": "all syntax trees, positions, texts, comment lines, configurations, files and numbers of workers", "why_tests_cant": "The claim compares analyses of two arbitrary texts of the same program; line numbers and the raw text are used by heuristics (except*, parenthesized with, novermin lines) at arbitrary places.", "anchors": ["vermin/source_visitor.py:SourceVisitor.visit_With", "vermin/source_visitor.py:SourceVisitor.visit_Try", "vermin/source_visitor.py:SourceVisitor.generic_visit", "vermin/parser.py:Parser.comments", "vermin/processor.py:Processor.process"]}
{"id": "C78", "title": "The work of an analysis", "statement": "The work of an analysis grows linearly with the size of the program. In any case it visits each part of a program at most as often as two to the number of classes and finally blocks it stands in, so a program without them is gone through at most once.", "quantifier": "all syntax trees, texts, excluded lines and configurations that print nothing else during a visit", "why_tests_cant": "Running time on a sample says nothing about the growth; the trees that need it are unboundedly deep.", "anchors": ["vermin/source_visitor.py:SourceVisitor.generic_visit", "vermin/source_visitor.py:SourceVisitor.visit_ClassDef", "vermin/source_visitor.py:SourceVisitor.visit_Try", "vermin/source_visitor.py:SourceVisitor.tour"]}
{"id": "C79", "title": "Self-documenting f-strings are told from others", "statement": "With the feature fstring-self-doc enabled, f'{expression=}' is recognized whatever the expression is and however it is written, so that 3.8 is required; other f-strings are not taken for one.", "quantifier": "all syntax trees of f-strings, expressions of any depth, ways to put blanks and parentheses, texts around them, renamed modules", "why_tests_cant": "Expressions have unbounded depth, and the heuristic compares a rebuilt text with the text of the source, which can be laid out in infinitely many ways.", "anchors": ["vermin/source_visitor.py:SourceVisitor.visit_JoinedStr", "vermin/source_visitor.py:SourceVisitor.__extract_fstring_value", "vermin/source_visitor.py:trim_fstring_value", "vermin/utility.py:remove_whitespace"]}
{"id": "C80", "title": "All ways to show the findings show the same ones", "statement": "What is written down about a source is what the format and the verbosity make of one list of findings, which does not depend on the format, the verbosity, quietness, the dump of nodes or what is done about incompatible versions. At one verbosity the readable and the parsable lines correspond line by line: same position, same versions, same text. A more verbose analysis tells everything a less verbose one tells.", "quantifier": "all syntax trees, all pairs of configurations that look for the same, all paths", "why_tests_cant": "A relation between two runs for every tree and every pair of configurations; a finding that one format leaves out shows only on the sources that have it.", "anchors": ["vermin/source_visitor.py:SourceVisitor.__verbose_print", "vermin/source_visitor.py:SourceVisitor.output_text", "vermin/formats/default_format.py:DefaultFormat", "vermin/formats/parsable_format.py:ParsableFormat"]}
{"id": "C81", "title": "The library and the program agree, wherever the source is", "statement": "The verdict that visit() and detect() give for a source does not depend on the path they are given. For a file the program gives the verdict that the library gives for its source, reports the clash that the library raises and leaves out what the library refuses to read. For many files the program says what the library's verdicts require together, and exits with 0 exactly if that fits the targets.", "quantifier": "all sources, trees, errors of parsing, paths, configurations, command lines and file systems", "why_tests_cant": "A relation between two entry points for every source, path and configuration; tests compare each with literals for a few sources.", "anchors": ["vermin/detection.py:visit", "vermin/detection.py:detect", "vermin/processor.py:Processor.process_individual", "vermin/processor.py:Processor.process", "vermin/main.py:main"]}
{"id": "C82", "title": "In violations mode a run fails exactly if it tells of something above a target", "statement": "With --violations the verdict on a file is above a target exactly if some line about the file tells of versions above it. A run exits with 1 exactly if it found no files or tells, about some file, of versions above a target; so a run that prints nothing has succeeded.", "quantifier": "all sources, trees, command lines, configurations, file systems and targets", "why_tests_cant": "A relation between the exit code, the lines of every file and the targets for all runs; tests look at the code or at the text of a few.", "anchors": ["vermin/main.py:main", "vermin/processor.py:Processor.process", "vermin/source_visitor.py:SourceVisitor.__add_versions_entity", "vermin/source_visitor.py:SourceVisitor.__violates_target_versions", "vermin/utility.py:compare_requirements"]}
{"id": "C83", "title": "It does not matter how the files are given", "statement": "A run finds the same files, prints the same and ends with the same code when the paths are given in another order or repeatedly, when files in given folders are named as well, or when all found files are named, in any spelling, instead of their folders. Giving paths together finds exactly what they find by themselves.", "quantifier": "all file systems, folders, links, paths, spellings, exclusions, options and sources", "why_tests_cant": "A relation between two command lines over every file system; tests look at some folders in one way.", "anchors": ["vermin/main.py:main", "vermin/detection.py:detect_paths", "vermin/detection.py:detect_paths_incremental", "vermin/detection.py:probably_python_file"]}
{"id": "C84", "title": "The reported minimum is the least target that is met", "statement": "Runs over the same files that differ in targets, verbosity, processes or violations mode share one verdict. What the report shows as minimum for a major version is the least version V of that major for which a run with -t=V- exits with 0; with -t=V exactly that one does; for a major that is ruled out or unknown none does. A run that succeeds with a target succeeds with a higher one; one with a target for each major succeeds exactly if both do by themselves; --violations adds exactly the case that nothing was detected.", "quantifier": "all command lines, targets, configurations, file systems and sources", "why_tests_cant": "A relation between any number of runs with different targets and the text of another; tests look at single runs.", "anchors": ["vermin/main.py:main", "vermin/utility.py:compare_requirements", "vermin/processor.py:Processor.process", "vermin/arguments.py:Arguments.parse"]}
{"id": "C85", "title": "Statements without requirements do not matter", "statement": "Docstrings and other texts, numbers, None, pass, break, return and assert of such values, global, and if, while and try around these can be added, removed or changed in any block at any depth: minimum versions, hints and failures of the file stay the same, in the API and in whole runs, also when the rest of the source moves to other lines because of that.", "quantifier": "all sources, all such changes, all configurations, runs and layouts that show the same parts as excluded", "why_tests_cant": "Every pair of sources that differ in any number of such statements, anywhere; tests look at single sources.", "anchors": ["vermin/source_visitor.py:SourceVisitor.visit_Constant", "vermin/source_visitor.py:SourceVisitor.generic_visit", "vermin/source_visitor.py:SourceVisitor.visit_ClassDef", "vermin/processor.py:Processor.process"]}
{"id": "C86", "title": "Annotations that are not evaluated do not matter", "statement": "Unless annotations are evaluated (--eval-annotations), what they say does not matter: two sources that differ only in the types they annotate variables, arguments and results of functions with have the same minimum versions, hints and failures, in the API and in whole runs. Only that there are annotations counts, and for variables whether the type is Final or Literal.", "quantifier": "all sources, all such changes, all configurations that do not evaluate annotations, and runs and layouts that show the same parts as excluded", "why_tests_cant": "Every pair of sources that differ in any number of annotations, anywhere; tests look at single annotations.", "anchors": ["vermin/source_visitor.py:SourceVisitor.visit_AnnAssign", "vermin/source_visitor.py:SourceVisitor.__handle_FunctionDef", "vermin/source_visitor.py:SourceVisitor.visit_arguments", "vermin/source_visitor.py:SourceVisitor.visit_ClassDef", "vermin/config.py:Config.eval_annotations"]}
{"id": "C87", "title": "Settings about names that a source does not contain do not matter", "statement": "Enabling or disabling backports, and adding or removing exclusions, for names whose parts do not occur as identifiers in a source changes nothing about it: the minimum versions, the output, the tips, the exit code and the way it fails are the same, in the API and in whole runs.", "quantifier": "all sources, all configurations that differ in any number of such backports and exclusions, all runs over any number of files", "why_tests_cant": "Every source together with every set of unrelated settings; tests look at settings for what is in the source.", "anchors": ["vermin/config.py:Config.add_backport", "vermin/config.py:Config.add_exclusion", "vermin/config.py:Config.is_excluded", "vermin/rules.py:bpv", "vermin/source_visitor.py:SourceVisitor.__add_module", "vermin/source_visitor.py:SourceVisitor.__add_member", "vermin/source_visitor.py:SourceVisitor.__add_kwargs", "vermin/main.py:main"]}
{"id": "C88", "title": "Settings for constructs that a source does not have do not matter", "statement": "Enabling the feature for self-documenting f-strings changes nothing for a source without f-strings, the feature for union types nothing for one without | and |=, and evaluating annotations nothing for one without annotations and without subscripts of names that may stand for generic types: the same minimum versions, output, tips, exit code and failures, in the API and in whole runs.", "quantifier": "all sources without the construct, all configurations that differ in these settings, all runs over any number of files", "why_tests_cant": "Every source and configuration; a test can only try some of them.", "anchors": ["vermin/config.py:Config.enable_feature", "vermin/config.py:Config.set_eval_annotations", "vermin/source_visitor.py:SourceVisitor.visit_JoinedStr", "vermin/source_visitor.py:SourceVisitor.visit_BinOp", "vermin/source_visitor.py:SourceVisitor.visit_AugAssign", "vermin/source_visitor.py:SourceVisitor.visit_AnnAssign", "vermin/source_visitor.py:SourceVisitor.visit_Subscript", "vermin/main.py:main"]}
{"id": "C89", "title": "Settings on which files to look at matter only for those files", "statement": "Looking at hidden files, looking into folders behind symbolic links, and having fewer exclusion patterns never makes a run lose a file. Every file that is found only then is at or below a path that is hidden, is such a folder, or matches one of the patterns. If there is no such path among those looked at, the same files are found, and the run prints the same and ends the same. If there is, the run requires no less, unless files clash. Apart from which files are found these settings change nothing: not the API and not what a run over given files prints and how it ends.", "quantifier": "all file systems, given paths, patterns and ways in which they match, configurations that differ in these settings, and all runs over any number of files", "why_tests_cant": "Every file system and every combination of the settings; a test can only try some trees of files.", "anchors": ["vermin/detection.py:detect_paths", "vermin/detection.py:detect_paths_incremental", "vermin/config.py:Config.set_analyze_hidden", "vermin/config.py:Config.set_scan_symlink_folders", "vermin/config.py:Config.is_excluded_by_regex", "vermin/main.py:main"]}
{"id": "C90", "title": "Files that are not for a run to analyse do not matter to it", "statement": "Two machines whose file systems differ only in hidden entries, in paths that are left out by patterns or ignored characters, in folders behind symbolic links that are not looked into, in files that do not look like Python, in things that are neither files nor folders, and in whatever is below those, lead to the same files, the same output and the same exit code; what is in files that are not analysed does not matter either.", "quantifier": "all pairs of file systems that are alike in this sense, all contents of files, given paths, configurations and command lines", "why_tests_cant": "Every pair of file systems; a test can only compare a few folders.", "anchors": ["vermin/detection.py:detect_paths", "vermin/detection.py:detect_paths_incremental", "vermin/detection.py:probably_python_file", "vermin/processor.py:Processor.process", "vermin/main.py:main"]}
{"id": "C91", "title": "The versions that are reported are releases of Python", "statement": "Whatever a source contains, and whichever files a run analyses, each major version is reported as ruled out, as unknown, or with a release of it: 2.0 to 2.7 or 3.0 to 3.12. Each of these releases is reported for some source, and no other version is, also among the versions that are listed. So a target from the newest release on (2.7- or 3.12- and above) fails only if the code is not for that major version or nothing is known about it.", "quantifier": "all sources, also ones that cannot be parsed, all states of the visitor, all configurations, all runs over any number of files with any number of processes", "why_tests_cant": "Every source and every mix of files, of which there is no end; tests look at single rules.", "anchors": ["vermin/rules.py:MOD_REQS", "vermin/rules.py:MOD_MEM_REQS", "vermin/rules.py:KWARGS_REQS", "vermin/source_visitor.py:SourceVisitor.minimum_versions", "vermin/parser.py:Parser.detect", "vermin/processor.py:Processor.process", "vermin/utility.py:combine_versions", "vermin/main.py:main"]}
