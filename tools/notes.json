{
 "C04": "False of the code (3.3 becomes 3.2): see the refutation; the partial theorem says exactly for which Python 2/3 versions it holds. vermin itself never passes floats.",
 "C07": [
  "proved",
  "Proved as stated (one entry per major). The extra refutation shows the condition matters: with two targets of the same major, which add_target allows, all but the last are ignored."
 ],
 "C09": "False of the code for columns >= 1000; proved for all lines and all columns below 1000 with exact keys, and for the keys in binary64, as Python computes them, up to four million lines; refuted for lines beyond 2^53.",
 "C10": "False of the code (anagrams collide); the partial theorem characterises exactly when two texts collide, and rounding to binary64 adds no collision.",
 "C15": "False of the code for the module typing_extensions (enabling its backport adds the requirement !2, 3.7 or later where there was none); proved for every other module rule and for all member and keyword rules.",
 "C20": "Both halves are false of the code. Equality fails when the other configuration lowered the parsable format's settings afterwards; proved otherwise. Independence fails because backports, features, targets and the format object are shared; proved for all other calls and for objects not joined by override_from, over an object (heap) model that refines the value model.",
 "C19": "False of the code: with the format set in a config file, -v, --no-ignore or --show-tips on the command line undo its settings. Proved whenever the command line names the format, and for config files when no option lowers a setting.",
 "C23": "Proved for operands that do not start with a dash. False otherwise: operands are read again as options; and --no-config-file itself stays among the paths.",
 "C24": "False of the code: a path before an option is dropped. The partial theorem gives exactly the arguments that become paths for options and paths in any order.",
 "C27": "False of the code: detection runs before the arguments are read and can raise DuplicateOptionError, DuplicateSectionError or UnicodeDecodeError. Proved for every run in which detection does not raise.",
 "C30": "False of the code without absolute paths: a hidden file given directly is dropped and '.' yields nothing, since its entries begin with './'. Proved for absolute paths, the default.",
 "C31": [
  "proved",
  "Proved; the refuted theorem only records that the table entry DS_Store can never match, since extensions are lower-cased."
 ],
 "C32": [
  "proved",
  "The exact set of excluded lines is proved for all token streams. The refuted theorems record two limits of the code: prefixed triple-quoted strings and an indented comment on the first line."
 ],
 "C46": "False of the code: a rule's name that stands alone is also triggered by its parts ('x', '' for hex). Proved for every other name; c46_covers gives the exact rule.",
 "C52": "Result and output are proved equal for every process count and every pool schedule when no file ends in an exception. Refuted: a too deep file drops all results with one process but only the later ones with more; lines that workers print themselves come in completion order.",
 "C53": "False of the code when files clash (the first one wins). Proved for all orders and repetitions otherwise; with clashes everything but the minimum versions is still independent of the order, and within one run the command line order never matters.",
 "C54": "The exit code is proved for every command line and all targets, with the target of each major version that counts (c54_any_targets). That all targets count is refuted for two of the same major.",
 "C55": "Proved for every summary a run under Python 3 can produce. Refuted: the 'no known reason' note can never be printed, and under a Python 2 interpreter with pessimistic syntax '~2' stands for Python 3.",
 "C58": "Proved for files that cannot be read, decoded or parsed, and interruptions before the tour, at any place in any list, whatever the other files do. Refuted for an interrupted tour, an exception in the visitor and a too deep tree.",
 "C42": "The loop, depth and try bookkeeping is proved balanced over every tree, and no scope leaks names, for functions, lambdas, comprehensions, for, with and except. Refuted for class bodies (arguments of methods leak) and for the stack of called functions when a call is neither by name nor by attribute.",
 "C43": "Proved: a keyword is only looked up for functions whose call it stands in. Refuted: it is also looked up for the enclosing calls, not at all after a nested call of a call, and not at all if the function is called by a new name from its import. c61_keywords has when it is found.",
 "C44": "False of the code: strftime given a literal that is no text, a complex number in an argument annotation, and a codecs function given a literal encoding that is no text end in TypeError, IndexError and AttributeError. Proved that these places (and a failing f-string heuristic, and violations without targets) are the only ones.",
 "C34": "Proved for every syntax tree (any settings of verbosity, format, targets, violations, dump). False for a source that does not parse and whose error text spans a line break: the parsable format escapes the text before it is matched against a type alias (c34_refuted); runs and the API are proved if the format is the same or the error text has no line break.",
 "C41": "An excluded node is skipped as a whole (c41_statement), and dropping excluded statements leaves the verdict as it is (c41_erased_partial) except directly in class bodies, where the code visits the contents of the statements a second time without the test (c41_refuted).",
 "C38": "Proved for every construct at any depth that the analysis comes to (reached) and that nothing else in the source can disguise (shown), for all 53 features a tree can show, including those that depend on the statements around (async generators, await in comprehensions, continue in finally, parenthesised with, module __dir__/__getattr__); c61_verdict gives the effect on the minimum. False of the code for the values of keyword arguments for functions of the source's own, without --eval-annotations the values of annotated variables, and awaits in the element of a comprehension (refuted). c38_names adds the constructs that depend on what names stand for: unions and merges of dicts, unions of types and builtin generics by variables, imported, renamed and dotted names. Refuted for unions of dict comprehensions, of calls by dotted names and of variables from named expressions.",
 "C40": "Proved for functions, classes, renamed imports and assignments of every form that do not stand in a statement with a scope of its own, whatever the order of definition and use. False of the code for definitions in the bodies of for, with and except at module level (refuted).",
 "C61": "Proved for every use the analysis comes to (the values of unevaluated annotations, and of keyword arguments for functions of the source's own, are not looked at, see C38), also under names that earlier imports in the same or an enclosing block give: modules, members, keyword arguments, directives, type codes, codec arguments, decorators, up to the minimum of a source and of a run.",
 "C63": "Proved for all trees and configurations at full verbosity, for sources without the Python 2 name `long`; refuted for `long`, whose line names no versions (c63_long_refuted). Below full verbosity lines are left out on purpose.",
 "C49": "Proved for one target, and for two of different majors. Refuted for two targets of one major (the first is compared with the version required of Python 2) and for no targets, where the program ends in an error.",
 "C50": "Proved that no line comes twice, none is lost and positions ascend; the order in which lines were produced is proved not to matter when no two lines share a sort key (or below full verbosity), and refuted by two lines that do. Sorting by the keys in binary64 is proved to give the same list for lines of ordinary positions.",
 "C64": "Proved: every position is one in the source, and those of library findings are lines where the text is used, for every tree and configuration at full verbosity. False of the code (refuted): the line of a feature need not be its own, a module takes the position of an encoding with the same text, the column of a module is that of the first one imported. A keyword argument is reported at a line of something in a call (or class definition) that has it, proved for trees with keyword arguments where the grammar has them; it need not be the line of the argument itself (refuted).",
 "C65": "Proved for every text of the grammar and every configuration that can be written down (round trip of all nineteen settings). False of the code (refuted): a single percent sign refuses the file; so does a blank line within a list of backports or features; an indented option is swallowed by the one before it; a file with a valueless option elsewhere is readable but not detected. A value that tells nothing falls back to what DEFAULT says, and there only the text True means yes. Sections named DEFAULT are covered.",
 "C66": "Proved for all exclusions except of keyword arguments (visits, single sources, whole runs). False of the code (refuted): excluding a keyword argument can raise the verdict, since its value is not visited any more; excluding a module loses names found through it that are not excluded.",
 "C67": "Proved for all backports except typing_extensions, all features, and all exclusions except of keyword arguments (visits, single sources, whole runs). False of the code (refuted): the typing_extensions backport gives a module without requirements one, and so raises the verdict; not evaluating annotations can raise it too.",
 "C68": "Proved of whole runs (text and exit code) for all configurations whose exclusions do not begin with '-'; behind a parsable format only files and folders may follow, otherwise any arguments but the choice of a config file. False of the code (refuted): exclusions beginning with '-', and options after a parsable format.",
 "C70": "Proved for all command lines but for two arguments. False of the code (refuted): --no-config-file is documented but also kept as a path; whatever begins with -v is taken as a verbosity though only repeated v is documented. The descriptions of the options in words are not compared.",
 "C71": "Proved of the whole output apart from the lines workers write themselves about syntax errors (c71_syntax, under assumptions on the texts of the error), if visits are not printed, no exclusion file is unreadable and every file found can be read. That findings add up to the versions of a file is for verbosity 3 without violations mode, which the format sets, and without the Python 2 type `long` (C59). False of the code (refuted): what is said of a file that cannot be read does not end its line; the text for no files found is not of the format.",
 "C72": "When tips are printed and what they name is proved for the default format without quiet mode. Taking the tip on backports is proved for runs without incompatible files and names other than typing_extensions; taking the tip on comments for runs where no file uses them. False of the code (refuted): the tip on comments is given though a file with contradictory findings uses them; taking the tip on typing_extensions makes the verdict stricter.",
 "C73": "For runs in which every file was analysed, on Python 3. Of several targets for one major version the last counts (C07). What workers print themselves about files that cannot be parsed is C33.",
 "C74": "All but the verbosity is proved for every config file and command line. False of the code (refuted): with a negative verbosity in the [DEFAULT] section and an empty one in the [vermin] section the verbosity is negative. It is not otherwise.",
 "C75": ["proved", "The same surrounding (configuration, comments, source text) is assumed for both sources. The two refuted theorems show that the exceptions are needed: a module defined later in the code, and files that clash."],
 "C76": ["proved", "Targets are shown as parse_target returns them; one added as a version tuple is a list and would have square brackets. The order in which Python lists a set is a parameter."],
 "C77": "Proved for every layout in which the text shows except* and with-parentheses at the same parts. Lines on top: proved unless a with statement has its parenthesis more than ten lines further down (refuted: c77_top_refuted) or the file starts with an indented comment (c32_first_line_refuted).",
 "C78": "The bound by nesting is proved; that the work is linear is false of the code (c78_linear_refuted): it doubles with every finally in a finally. Work is counted by the lines that --dump prints, one for each visited part.",
 "C79": "Proved for names, dotted names, usual literals, operators, comparisons, conditionals, displays, comprehensions with one loop, items and simple calls, with any blanks and parentheses. False for strings in single quotes, calls with more arguments, slices and renamed modules (c79_all_refuted); f'a={a}' is taken for one (c79_only_refuted).",
 "C80": ["proved", "Both analyses have to succeed: where incompatible versions end one of them, it prints no findings. c80_lowered_refuted is about the command line: with a config file that asks for the parsable format, -v lowers the verbosity below what that format is for, and no findings are printed (see C19)."],
 "C81": ["proved", "The verdict of the library is that of detect(). Files that cannot be read and texts that are no Python count for nothing in the statement for many files. The statement for one file asks that reading the text ends in a tree or in a SyntaxError, ValueError or TypeError; c81_failing_refuted shows that it is false for other failures: the library raises, the program goes on as if the file had no requirements."],
 "C82": "Proved for verbosity 3 and more, targets that are upper bounds (one, or one for each major), files without `long`, files that do not clash, and without --pessimistic; quiet or not, in either format. Each of these is needed: c82_exact_refuted (an exact target fails silently), c82_verbosity_refuted (True and False are told of from -vvv on only), c82_pessimistic_refuted (exit code 0 although Python 3 is ruled out), c82_torn_refuted (a file that contradicts itself does not count), c63_long_refuted.",
 "C83": "Proved for all file systems whose folders list plain names (not empty, \".\" or \"..\", no slash), which is needed only when paths are made absolute. c83_spelling_refuted: with --no-make-paths-absolute, one file in two spellings is analysed twice; so there a path names only the file that is spelled the same.",
 "C84": "For runs that are not interrupted, under Python 3, in the same format (the format can change the verdict, c34_refuted) and with the same analysis settings.",
 "C85": "Bytes, True, False and ... are not among these statements, since they have requirements of their own (c85_not_idle). Layout as in C77.",
 "C86": "Proved for annotations of variables and results of functions that do not stand directly in a class, in any block at any depth. The rest is false: annotations of arguments are visited (c86_argument_refuted), and what stands directly in a class is visited twice, the second time with annotations (c86_method_refuted, c86_attribute_refuted). Layout as in C77.",
 "C87": "A name is one that the source may be about when each of its parts stands in the tree as an identifier or part of a module name, or is the name of the type of a literal. Exclusions of codecs names (ceh=, ce=) are about constants and must be the same.",
 "C88": "A subscripted attribute counts if its last part is the end of such a name. Without the condition on subscripts it is false: x = dict[str, int] is no annotation but counts if annotations are evaluated (c88_there).",
 "C89": "The patterns are any list and what they match is any relation. Files clash when one is for Python 2 only and another one for Python 3 only and that is not ignored (c75_files_refuted shows that the run can then require less).",
 "C90": "Exclusion files, config files and their detection are taken to be the same on both machines.",
 "C91": "3.12 is the newest release the rules speak of at this commit. The last sentence is c91_newest; without violations mode, as in C84."
}
