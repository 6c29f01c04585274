# Formal model of netromdk/vermin in Rocq (Coq 8.16.1)

## Approach

The model is a set of total, executable Gallina functions, one per Python function of `/repo/vermin`,
each carrying a comment with the file and lines it models. Python exceptions are values (`res`).
Model files contain no proofs; `Spec_*.v` files state what the properties mean without using the
model's helpers; `Proof_*.v` files hold lemmas; `Prop_*.v` files hold only the named theorems (closed by
`exact`), their non-vacuity examples and `Print Assumptions`.

* Strings are Coq `string`s read as ASCII/UTF-8 bytes. `lower`, whitespace and digits are ASCII.
* Sets and dicts are duplicate-free lists / association lists.
* Rule tables are generated from the text of `rules.py` by `tools/gen_rules.py` (Python's `ast` as a
  text parser; vermin is never imported) into `RulesData.v`, keeping every backport-dependent
  expression symbolic.
* Syntax trees are one generic inductive (`node kind`, fields, position, identity), so that all
  CPython 3.12 node kinds, including those vermin does not handle, are in the quantifiers.
* The visitor is a state transformer with exceptions, defined by structural recursion.
* `ast.parse`, `tokenize`, the file system, `re.search`, `configparser` and the worker pool's timing
  are oracles: universally quantified parameters of the theorems, never axioms.

## Plan per property

| id | modelled | proof |
|----|----------|-------|
| C01-C04 | `combine_versions`, `float_version` (binary64 by `SpecFloat`) | case analysis, lattice laws, folds under permutation; C04 expected false (float truncation): `_refuted` + partial |
| C05-C08 | `version_strings`, `parse_target`, `compare_requirements`, `dotted_name` | induction over strings and lists, decimal printing round trip |
| C09, C10 | sort keys | arithmetic; expected false for columns >= 1000 and for anagrams: `_refuted` + partial |
| C11, C12 | `remove_whitespace`, `format_title_descs` | induction |
| C13-C15 | generated rule tables, `bpv`, backports | a sound symbolic check over every rule expression, valid for every backport set, run by `vm_compute`; C15 expected false for one backport |
| C16-C21 | `Config` as a record, all mutators as commands, histories as lists of commands; aliasing by a small heap | invariants by induction over histories |
| C22, C26, C27 | `detect_config_file` over folder component lists, candidates as oracle | induction on depth |
| C23-C25 | `Arguments.parse` as a loop over the argument list | induction over option lists; C24 expected false |
| C28-C31 | `detect_paths` over an abstract file system, worker pool as any completion order | soundness and completeness against an inductive reachability spec |
| C32, C33 | `Parser.comments` over token streams, `Parser.detect` over parse outcomes | invariants of the token loop |
| C34-C46 | the whole `SourceVisitor` | preservation, non-interference, soundness and completeness by induction over trees |
| C47-C50 | formats, output text | string lemmas, sorting under permutation |
| C51-C58 | `Processor`, `main` | fold invariants, schedules as arbitrary interleavings, composition |
| C59, C60 | the whole `SourceVisitor` | every recorded name is traced back to a node of the tree, an invariant over all handlers |
| C61 | the whole `SourceVisitor`, `minimum_versions`, a run | completeness: a visit of a node of the right shape records the name, and recorded names only grow |
| C62 | every mutating method of `Config` as a history | frame: a table of which call is about which setting, then induction over the history |
| C63 | the lines the visitor and the verdict print, next to the features and rules they count | invariant of the tour: every feature set has a line with its versions; join of the versions read back from the lines equals the verdict |
| C64 | the positions recorded while visiting and the lines printed with them | invariant of the tour: the current line and every recorded position are positions in the tree, every recorded position of a text is that of a use of it, everything recorded has one; for keyword arguments, relative to the call being visited: the current line is always one of a part of it |
| C65 | `configparser` as far as config.py uses it, on the text of a file | grammar of files as inductive relations; invariant of the reader over lines; the two parsers of the code run in lockstep; values of a written configuration computed back |
| C66 | two visits of the same tree with different exclusions | simulation: the state with more exclusions holds sub-lists of what the other holds; the loop over known modules by coverage of what the larger list already gave; rules triggered are a subset, so joins and clashes follow |
| C67 | two visits of the same tree with settings that differ in exclusions, features and backports | the simulation of C66 made general in what features ask for; each rule triggered then has one triggered before that is at least as strict (C15's monotonicity of rules), so joins and clashes follow |
| C68 | whole runs: INI text, command line, configuration, report | the options that spell a configuration run to the configuration the written file is read as (C65, C23); the rest of the command line is handled alike from states that differ in the position; then runs depend on the parsed command line alone |
| C69 | the texts printed by `parse`, `parse_file` and `add_target`, beside their effects | the printing model and the model of the effects agree (same branches); every branch that refuses is matched with a reason stated over the arguments and the text of the config file; induction over the arguments, counting targets |
| C70 | the lines of the text `print_usage` prints, the parser, the search for files and config files | the specification reads the options, marks and listings off the printed lines, for any program name and number of cores; the parser is compared with them argument by argument (every argument falls under one test or none), and put at any place of a command line by induction |
| C71 | `main` with the parsable format: the loop over results, the report, the lines of the visitor and of `Parser.detect`, the choice of files | the specification is a reader of lines (six fields, versions written in one way); the output is cut into blocks by induction over the files, the findings come from C59, their paths from what `detect_paths` refuses, and the versions of the run are the join of those read |
| C72 | the tips of `main`, the summary they are made from, and a second run with the option of a tip | the lines of the report are taken apart as for C55, what the summary holds is C51, the options are read as for C62, and the second run is compared with the first by the simulations of C66/C67 (backports) and C61 (comments) |
| C73 | all that `main` prints in the default format: `parse`, the aggregation loop, `DefaultFormat.output_result` and the report | the output as a whole is described by inductive predicates (`sections`, `report_text`); the loop invariant carries the text printed so far, and each line of the report is shown to be there iff its condition holds |
| C74 | `parse_fp`, `override_from`, the option loop and the checks behind it | an invariant of the configuration kept by every step of both readers |
| C75 | `tour` of a module with statements appended; `process` on more files | the visit of the longer list passes the state the shorter one ends in (`like`, C34), and every step of a visit keeps what is recorded (`flat`, C38); joins are monotone (C44, C51) |
| C76 | `Config.__repr__` in ConfigRepr.v | no value has a line break in it, so the lines can be split; the forms of two characters never start alike, so strings and lists of them are read back uniquely |
| C77 | `process_tree`, `process_individual`, `process`, `api_detect` on a tree and the same tree at other positions | simulation of the two visits in two environments (texts, excluded lines), handler by handler; the comment scanner on moved tokens; the text heuristics on moved lines |
| C78 | `tour`: the lines that `--dump` prints, one for each visited node | every handler prints at most one line and visits each field at most once, `finally` and class bodies twice; induction on trees; exact count for nested `finally` by induction on the depth |
| C79 | `selfdoc`, `extract_fstring_value`, `trim_fstring_value`; `tour` with them | a grammar of the ways to write an expression; induction on it: the rebuilt text is the written one but for blanks and parentheses; from there to the flag and the minimum with the reachability of C38 |
| C80 | `tour`, `minimum_versions`, `output_lines` with two configurations | a relation `renders` between a list of findings and lines, written apart from the formats; a simulation of the two analyses in which both outputs are renderings of one list, by induction on trees through all handlers; then sorting and removal of duplicates |
| C81 | `api_detect`, `process_individual`, `process`, `main` on the same sources | a simulation of two analyses under different paths, whose states agree but for the two facts recorded for `__init__.py` only, by induction on trees through all handlers; then C45, C51 and C54 |
| C82 | `main` in violations mode: the lines of every file, the verdicts and the exit code | verdicts are joins of requirements that say something of both majors or of none (checked for all tables), so that a verdict fits upper bounds iff it is above none (C54); above a target iff a joined one is; then C63 for each tree |
| C83 | `main`, `found_files` and `abspath` over two lists of paths | every path the search comes to is the path that is opened (joining a plain name to an absolute path gives one), so a found file is found again when named, and leads to nothing else; the sorted lists have the same members |
| C84 | `main` over any number of command lines that differ in targets and output | C34 and C52 for one verdict of all runs (C34 now without a hypothesis on syntax errors where the format is the same), C54 for each exit code, C73 for the text |
| C85 | pairs of trees that differ in idle statements (`padded`), with other positions | such visits change the text and the current line only; simulation of both tours as in C34 and C41, followed by that of C77 |
| C86 | pairs of trees that differ in annotations of variables and results (`reannotated`), with other positions | the simulation of C85, generic in the relation (`Proof_Changed.v`), with depth and class context |
| C87 | a tree, and two configurations that differ in backports and exclusions (`about_others`) | two-sided induction over the traversal: every name that is recorded or tested is made of words of the tree (`sem_ag`); every rule asks only for backports of its own module (checked over the whole tables) |
| C88 | a tree, and two configurations that differ in features and in the evaluation of annotations (`for_absent`) | two-sided induction over the traversal, with the invariant that only `generic_name`s are bound to generic types and that no hint of annotations is recorded |
| C89 | two configurations of which one looks further (`looks_further`), over any file system; reasons for leaving a path out (`kept_from`) | induction over the paths looked at, with C28; for the analysis the two-sided induction of C88, for the requirements C75 |
| C90 | two machines whose file systems are alike at every path looked at in both (`alike_for`) | induction over the paths looked at, in both directions, with C28; the run by extensionality over the files found |
| C91 | verdicts of any visitor state, of unparsable code, of files and of runs (`sayable`, `released`) | all values of the rule tables are checked by computation, for every set of backports; the rest by C35, the cases of a file's verdict and induction over the results of a run; targets with C84 |

Properties expected to be false of the code are kept in full; a `..._refuted` theorem gives the
counterexample and the strongest true version is named `..._partial`.

## Files

| file | models |
|------|--------|
| `PyBase.v` | Python strings, ints, lists, sorting, dicts, exceptions as far as they are used |
| `Utility.v` | utility.py |
| `Binary64.v` | utility.py:108-146 again, the sort keys in binary64 |
| `RulesData.v` (generated), `Rules.v` | rules.py, backports.py, features.py |
| `Config.v`, `Heap.v` | config.py, constants.py, formats/__init__.py, formats/format.py; `Heap.v` adds object identity |
| `Ini.v` | config.py:134-160, 163-180, 237-246 on the text of a file: the standard library's `configparser`, version 3.11, with interpolation |
| `Formats.v` | printing.py, formats/default_format.py, formats/parsable_format.py |
| `Paths.v` | posixpath functions of the standard library |
| `Arguments.v` | arguments.py:194-428: the effects |
| `Messages.v` | arguments.py:194-428, config.py:89-226, 404-406: what is printed; main.py:13-153 with all of its output |
| `UsageData.v`, `Usage.v` | arguments.py:15-192, formats/__init__.py:17-28; the texts are generated by `tools/gen_usage.py` |
| `Pool.v` | multiprocessing's `imap` |
| `Detection.v` | detection.py:427-539 |
| `Parser.v` | parser.py |
| `AstKinds.v` (generated), `Ast.v`, `State.v` (generated), `Visitor.v` | CPython's node kinds; source_state.py; source_visitor.py:1-301 and 567-2254 |
| `Fstring.v` | source_visitor.py:1505-1522 (the self-documenting f-string heuristic) |
| `MinVersions.v` | source_visitor.py:302-565 |
| `Processor.v` | processor.py, detection.py:541-570 |
| `Main.v` | main.py |
| `Trees.v`, `Samples.v` (generated) | concrete trees for the examples, printed from `ast.parse` of small sources |

## Trusted base

* Coq 8.16.1's kernel, including `vm_compute`.
* The reading of the Python code: the model is written by hand, function by function, with the
  lines cited. `tools/conformance.py` reads `/repo/tests` as text and evaluates 4491 of the project's own
  assertions in the model (detected versions of source snippets, version strings, targets, sort
  keys and so on); all agree. This is a test of the model, not part of the proofs.
* The generators in `tools/` that print the rule tables, node kinds, state record and sample trees.
  They use Python 3.11's `ast` as a parser of text.
* `Print Assumptions` of every theorem named in MANIFEST.json says `Closed under the global context`:
  no axiom is used, neither of the standard library nor any other. (A check of all loaded modules
  lists `Coq.ssr.ssrunder.Under_rel.*`; these are parameters inside a module type of the standard
  library's ssreflect support, loaded with it and not used by any theorem.)

### Oracles

The following are universally quantified in the theorems, so nothing is assumed of them unless a
theorem's hypotheses say so.

* `ast.parse` and `tokenize`: any tree over CPython's node kinds, any token list, any exception.
* The file system (lstat, stat, listdir, lines of a file), the working directory, config file contents
  as `configparser` presents them, which regular expressions compile and what they match.
* The number of processors, the interpreter's major version.
* The order in which workers finish; when the user interrupts; whether the interpreter's stack overflows.
* `ast.dump`; the f-string heuristic (a parameter of the visitor, instantiated in `Fstring.v`).

### Not modelled

* The texts of Python's own exceptions where the program prints them (an oracle by file), and tracebacks.
* The Windows branches (main.py:36, source_state.py:22): POSIX is assumed, as are POSIX paths.
* Getters of `Config` that only return an attribute.
* Text outside ASCII: strings are byte strings; `lower`, `strip`, `\d`, `\w` and `\s` act on ASCII.
* Sort keys (utility.py:108-146) are exact rationals in Utility.v. Binary64.v has them as Python computes them, in
  binary64; Prop_Binary64.v proves that both sort alike up to four million lines and 999 columns. The limit of 4300
  digits of newer versions of `int()` is left out.
* The order of Python's sets where the code lists one without sorting: the model keeps insertion order.
  `c50_order_independent_partial` says when the order does not matter.
* `Config.v` takes config files as `configparser` presents them. `Ini.v` models that module for their texts and was
  compared with the standard library on random texts.
* A RuntimeError of a pool started outside the main module.
* `str(float)` (never reached by the program).
* Time and memory, except for the number of visits (C78). The depth of folders is unbounded; the detection loop takes fuel and all theorems hold
  for every amount that suffices.

## Findings

Properties that are false of the code are refuted by a theorem ending in `_refuted`; MANIFEST.json has the
list. In short:

* C04: `float_version(3.3)` is `(3, 2)`. Not reached by the program, which passes tuples only.
* C07, C54: two targets of the same major are accepted, and only the last one counts.
* C09, C10: columns from 1000 on spill into the line; anagrams have equal keys. In binary64 neighbouring lines share
  a key from line 2^53 on, and from 10^309 on there is none.
* C15: enabling the backport `typing_extensions` raises the requirement of that module.
* C19: options on the command line undo the settings of a parsable format chosen in a config file.
* C20: `override_from` shares sets, targets and the format object with the other configuration.
* C23, C24: operands that look like options are read twice; a path before an option is not analysed.
* C27: `--no-config-file` does not prevent a broken config file from ending the run.
* C28, C30: an empty path with relative paths raises IndexError; `.` without absolute paths yields no files.
* C31: the ignored extension `DS_Store` can never match.
* C32: triple-quoted strings with a prefix are not seen as such; an indented comment on the first line.
* C34: the verdict for a source with a syntax error can depend on the format.
* C38: the values of keyword arguments for the source's own functions, and of annotated variables without `--eval-annotations`, are not looked at.
* C63: `long` counts as (2.0, !3), but its line names no versions; the parsable lines give no reason for such a verdict.
* C64: the line in front of a feature is the last line seen before it, not always its own (an f-string on the second line
  of an expression is reported on the first); positions are kept by text alone, so a module and an encoding of the same
  name (`bz2`) share one and the module is reported where the encoding is used; the column of a module is that of the
  first name in its import statement.
* C66: excluding a keyword argument `f(k)` also stops the visit of its value (source_visitor.py:1161-1166), so a definition in it is missed and
  the verdict can rise: `foo(k=(long := 1))` followed by `long` is `!2, 3.8`, and `2.0, !3` with `foo(k)` excluded. Excluding a module also
  loses what is found through it: with `importlib` excluded `importlib.metadata` is not reported.
* C67: `import typing_extensions` asks for nothing without its backport and for `!2, 3.7` with it (see C15). Evaluating annotations can lower
  a verdict: after `x: (ExceptionGroup := 1) = 2`, `raise ExceptionGroup` counts as the builtin of 3.11 unless annotations are evaluated.
* C68: an exclusion that begins with `-` can be given by a config file but not by an option, where it is also taken for the option of its own name
  (`--exclude -q` is quiet). With `format = parsable` in a config file, later options such as `-v` undo what the format demands; with
  `--format parsable` they do not.
* C70: `--no-config-file` is documented like the other options but ends up among the files and folders (`c70_documented_refuted`); and
  anything that begins with `-v`, like `-version`, is silently taken as a verbosity (`c70_undocumented_refuted`).
* C71: with the parsable format the text about a file that cannot be read has no newline, so the line with the versions
  of that file starts in its midst and is no line of six fields; when no file is found, a sentence is printed instead of one.
* C72: a file with contradictory findings does not count for the hints, so "Since '# novm' or '# novermin' weren't used" is
  printed though it uses them; taking the tip on `typing_extensions` raises the verdict from nothing to `!2, 3.7`.
* C74: `verbose = -1` in the `[DEFAULT]` section of a config file and `verbose =` in its `[vermin]` section gives the
  verbosity -1, though a negative one is refused where it stands: the default is not checked.
* C75: a module imported and used early is no longer required if the same name is assigned at the end of the file; and a
  file that clashes with others makes the run forget those that come later by name, so adding a file can lower the verdict.
* C77: the parenthesis of a `with` is searched in as many lines as the number of its line, and ten more: for `with` with
  twelve continued lines before the parenthesis on line 1, an empty line on top of the file changes the verdict from 2.7, 3.1 to 3.9.
* C78: `finally` blocks are visited twice (`source_visitor.py:2154-2162`) and the contents of the statements of a class
  twice (1781-1784). The work doubles with every `finally` in a `finally`: `n` of them, in a program of `2n + 2` nodes, take
  `2^n` visits, so about forty levels of a small file keep vermin busy for ever.
* C79: `f"{'a'=}"`, `f'{g(a, b)=}'`, `f'{a[1:2]=}'` and `f'{o.path=}'` after `import os as o` are not recognized as
  self-documenting; `f'a={a}'` is, though its value has no `!r` (conversion -1) and works with 3.6.
* C80: with `format = parsable` in the config file, `vermin -v a.py` prints parsable lines without any finding: the option
  puts the verbosity from 3 back to 1 and the format stays.
* C65: with `quiet = true` in `[DEFAULT]` and a value in `[vermin]` that is no boolean, `quiet` is off: the fallback knows
  only the text `True`.
* C81: a `MemoryError` or `RecursionError` while parsing is raised by the library; the program reports the file to have no
  requirements, prints the error among its findings and can exit with 0.
* C81: a module function `__dir__` or `__getattr__` in an `__init__.py` is said to be supported since 3.7, but does not count
  for the verdict, and in other modules it is not even mentioned.
* C82: with `--violations` a run can fail and say nothing: `-t=3.4` (exact) on a source that needs 3.2, and `-t=2.2-` on a
  source with `True` unless `-vvv` is given, as the constant's line is printed from verbosity 3 on only.
* C82: with `--violations --pessimistic` a text that cannot be parsed rules Python 3 out, but `-t=3.4-` is passed (exit code 0);
  without `--violations` it fails. A file that contradicts itself is reported, but the run exits with 0.
* C83: with `--no-make-paths-absolute`, `d/b.py` and `d//b.py` are two files:
  the file is analysed and reported twice.
* C64: a keyword argument is reported at the last line visited before it, mostly that where its call begins: with `ZipFile('a',`,
  `'r',` and `compresslevel=3)` on lines 2 to 4, `compresslevel` is reported at line 2.
* C38: `{a: a for a in b} | {}`, `collections.OrderedDict() | {}` and `(d := {})` followed by `d | {}` are not reported as unions of
  dicts; `OrderedDict() | {}` with the imported name is.
* C86: without `--eval-annotations`, `def f(a: typing.Self): pass` still asks for 3.11, and so do `def f(self) -> typing.Self: pass`
  and `a: typing.Self` directly in a class: arguments are visited with their annotations, and class bodies a second time.
* C88: evaluating annotations changes the verdict of `T = dict; x = T[str, int]`, which has no annotation (`c88_there`).
* C65: a single `%` in a value, or a blank line within a list of backports, features or targets, refuses the whole config
  file; an option indented more than the one before becomes part of that one's value, and both are lost silently; an
  option without value in any other section of the file keeps it from being detected, though `--config-file` reads it.
* C38: `[await f() for f in fs]` is not reported as `await` in a comprehension; only an `await` in the `for` and `if` parts is.
* C40: definitions in the body of a module-level `for`, `with` or `except` are forgotten.
* C41: `novm` on a method does not exclude the method's body.
* C42: arguments of methods become user-defined names of the module; a call of a call pops the stack of
  called functions twice.
* C43: keywords are also attributed to the enclosing calls, and lost after a nested call of a call; they are
  not looked up when the function has a new name, as in `from zipfile import ZipFile as Z`.
* C44: `strftime(5)`, a complex number in an annotation and `codecs` with a non-text encoding crash.
* C46: `"x"` as encoding counts as `hex`, being a part of it.
* C49: with two targets of the same major, violations mode compares versions with the wrong target; without targets, which only the API allows, it raises IndexError.
* C50: lines with equal sort keys come in the order of a hash set.
* C52: a too deep file drops all results with one process, but only later ones with more.
* C53: with clashing files the first one decides.
* C55: the note "No known reason found" can never be printed.
* C58: an interrupt during the tour of a file ends in an AssertionError of the aggregation.

Seen while modelling, without a property of their own: return annotations of methods are visited even without
`--eval-annotations`; a `finally` of `try`/`except*` is not checked for `continue`; yields of lambdas and nested
class methods count for the enclosing async function; `from array import array as pow` hides the check
of the modular inverse; restoring the names after a `for` loop has no effect; the message of an
incompatibility in violations mode leaves out rules that are not shown.

## Wrong programs

`seeded/LOG.jsonl` has one line per deliberate bug: the model was changed in a scratch copy, everything that
depends on it was rebuilt, and the theorems whose proofs failed are listed. A theorem counts as failed when
its own proof or that of a lemma it needs no longer goes through. Where the claim in English was broken
but no theorem failed, the theorem was tightened, and the line says how.
