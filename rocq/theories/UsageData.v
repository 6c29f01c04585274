(** Generated by tools/gen_usage.py from /repo/vermin/arguments.py and constants.py. *)
From Verif Require Import PyBase.

(** constants.py:3 [VERSION]. *)
Definition version_text : string := "1.6.0".

(** The parts of a printed text: literal text, and what str.format puts in (arguments.py:17-192). *)
Inductive piece : Set :=
| Txt (s : string)
| HVersion | HProg | HNames | HBoundaries | HCpus | HFormats | HBackports | HFeatures.

(** Whether a print call is outside of the two [if]s, under [if not full] or under [if full]. *)
Inductive when : Set := Always | OnlyShort | OnlyFull.

(** arguments.py:17-192: the print calls of [print_usage] in order. *)
Definition usage_prints : list (when * list piece) :=
  [ (* 17-17 *) (Always, [Txt "Vermin "; HVersion]);
    (* 18-18 *) (Always, [Txt "Usage: "; HProg; Txt " [options] <python source files and folders..>"]);
    (* 19-19 *) (Always, [Txt "
Concurrently detect the minimum Python versions needed to run code."]);
    (* 22-22 *) (OnlyShort, [Txt "
For full help and options, use `-h` or `--help`."]);
    (* 24-28 *) (Always, [Txt "
Heuristics are employed to determine which files to analyze:
  - 'py', 'py3', 'pyw', 'pyj', 'pyi' are always scanned (unless otherwise excluded)
  - 'pyc', 'pyd', 'pxd', 'pyx', 'pyo' are ignored (including various other files)
  - Magic lines with 'python' are accepted, like: #!/usr/bin/env python
  - Files that cannot be opened for reading as text devices are ignored"]);
    (* 29-31 *) (Always, [Txt "
However, Vermin will always attempt to parse any file paths directly specified on
the command line, even without accepted extensions or heuristics, unless otherwise
excluded."]);
    (* 32-32 *) (Always, [Txt "
Results interpretation:"]);
    (* 33-33 *) (Always, [Txt "  ~2       No known reason it won't work with py2."]);
    (* 34-34 *) (Always, [Txt "  !2       It is known that it won't work with py2."]);
    (* 35-35 *) (Always, [Txt "  2.5, !3  Works with 2.5+ but it is known it won't work with py3."]);
    (* 36-36 *) (Always, [Txt "  ~2, 3.4  No known reason it won't work with py2, works with 3.4+"]);
    (* 37-38 *) (Always, [Txt "
Incompatible versions notices mean that several files were detected incompatible
with py2 and py3 simultaneously. In such cases the results might be inconclusive."]);
    (* 39-42 *) (Always, [Txt "
A config file is automatically tried detected from the current working directory
where Vermin is run, following parent folders until either the root or project
boundary files/folders are reached. However, if --config-file is specified, no config
is auto-detected and loaded."]);
    (* 45-48 *) (OnlyFull, [Txt "
Config file names being looked for: "; HNames; Txt "
Project boundary files/folders: "; HBoundaries]);
    (* 50-50 *) (OnlyFull, [Txt "
Options:"]);
    (* 51-53 *) (OnlyFull, [Txt "  --quiet | -q
        Quiet mode. If used together with --violations, quiet mode is preserved
        while showing only violations: no descriptive text, tips, or verdicts.
"]);
    (* 54-55 *) (OnlyFull, [Txt "  --no-quiet (default)
        Disable quiet mode.
"]);
    (* 56-62 *) (OnlyFull, [Txt "  -v..  Verbosity level 1 to 4. -v, -vv, -vvv, and -vvvv shows increasingly more
        information.
        -v     will show the individual versions required per file.
        -vv    will also show which modules, functions etc. that constitutes
               the requirements.
        -vvv   will also show line/col numbers.
        -vvvv  will also show user-defined symbols being ignored.
"]);
    (* 63-70 *) (OnlyFull, [Txt "  --target=V | -t=V
        Target version that files must abide by. Can be specified once or twice.
        A '-' can be appended to match target version or smaller, like '-t=3.5-'.
        If not met Vermin will exit with code 1. Vermin will only compare target
        versions with the same major version, so if you do not care about Python
        2, you can just specify one target for Python 3. However, if used in
        conjunction with --violations, and no rules are triggered, it will exit
        with code 0.
"]);
    (* 71-72 *) (OnlyFull, [Txt "  --no-target (default)
        Don't expect certain target version(s).
"]);
    (* 73-75 *) (OnlyFull, [Txt "  --processes=N | -p=N
        Use N concurrent processes to detect and analyze files. Defaults to all
        cores ("; HCpus; Txt ").
"]);
    (* 76-79 *) (OnlyFull, [Txt "  --ignore | -i
        Ignore incompatible versions and warnings. However, if no compatible
        versions are found then incompatible versions will be shown in the end to
        not have an absence of results.
"]);
    (* 80-81 *) (OnlyFull, [Txt "  --no-ignore (default)
        Don't ignore incompatible versions and warnings.
"]);
    (* 82-83 *) (OnlyFull, [Txt "  --dump | -d
        Dump AST node visits.
"]);
    (* 84-85 *) (OnlyFull, [Txt "  --no-dump (default)
        Don't dump AST node visits."]);
    (* 86-87 *) (OnlyFull, [Txt "
  --help | -h
        Shows this information and exits."]);
    (* 88-89 *) (OnlyFull, [Txt "
  --version | -V
        Shows version number and exits."]);
    (* 90-93 *) (OnlyFull, [Txt "
  --config-file <path> | -c <path>
        Loads config file unless --no-config-file is specified. Any additional
        arguments supplied are applied on top of that config. See configuration
        section above for more information."]);
    (* 94-95 *) (OnlyFull, [Txt "
  --no-config-file
        No automatic config file detection and --config-file argument is disallowed."]);
    (* 96-97 *) (OnlyFull, [Txt "
  --hidden
        Analyze 'hidden' files and folders starting with '.'."]);
    (* 98-99 *) (OnlyFull, [Txt "
  --no-hidden (default)
        Don't analyze hidden files and folders unless specified directly."]);
    (* 100-101 *) (OnlyFull, [Txt "
  --versions
        In the end, print all unique versions required by the analysed code."]);
    (* 102-104 *) (OnlyFull, [Txt "
  --show-tips (default)
        Show helpful tips at the end, like those relating to backports or usage of
        unevaluated generic/literal annotations."]);
    (* 105-106 *) (OnlyFull, [Txt "
  --no-tips
        Don't show tips."]);
    (* 107-115 *) (OnlyFull, [Txt "
  --violations | --lint
        Show only results that violate versions described by --target arguments,
        which are required to be specified. Verbosity mode is automatically set to
        at least 2 in order to show violations in output text, but can be increased
        if necessary.

        If no rules are triggered while used in conjunction with --target, an exit
        code 0 will still be yielded due to inconclusivity.

        Can be used together with --quiet such that only the violations are shown:
        no descriptive text, tips, or verdicts."]);
    (* 116-117 *) (OnlyFull, [Txt "
  --no-violations | --no-lint (default)
        Show regular results."]);
    (* 118-120 *) (OnlyFull, [Txt "
  --pessimistic
        Pessimistic mode: syntax errors are interpreted as the major Python version
        in use being incompatible."]);
    (* 121-122 *) (OnlyFull, [Txt "
  --no-pessimistic (default)
        Disable pessimistic mode."]);
    (* 123-128 *) (OnlyFull, [Txt "
  --eval-annotations
        Instructs parser that annotations will be manually evaluated in code, which
        changes minimum versions in certain cases. Otherwise, function and variable
        annotations are not evaluated at definition time. Apply this argument if
        code uses `typing.get_type_hints` or `eval(obj.__annotations__)` or
        otherwise forces evaluation of annotations."]);
    (* 129-130 *) (OnlyFull, [Txt "
  --no-eval-annotations (default)
        Disable annotations evaluation."]);
    (* 131-133 *) (OnlyFull, [Txt "
  --parse-comments (default)
        Parse for comments to influence exclusion of code for analysis via
        ""# novm"" and ""# novermin""."]);
    (* 134-136 *) (OnlyFull, [Txt "
  --no-parse-comments
        Don't parse for comments. Not parsing comments can sometimes yield a speedup
        of 30-40%+."]);
    (* 137-138 *) (OnlyFull, [Txt "
  --scan-symlink-folders
        Scan symlinks to folders to include in analysis."]);
    (* 139-141 *) (OnlyFull, [Txt "
  --no-symlink-folders (default)
        Don't scan symlinks to folders to include in analysis. Symlinks
        to non-folders or top-level folders will always be scanned."]);
    (* 142-144 *) (OnlyFull, [Txt "
  --format <name> | -f <name>
        Format to show results and output in.
        Supported formats:
"; HFormats]);
    (* 145-152 *) (OnlyFull, [Txt "
  [--exclude <name>] ...
        Exclude full names, like 'email.parser.FeedParser', from analysis. Useful to
        ignore conditional logic that can trigger incompatible results.

        Examples:
          Exclude 'foo.bar.baz' module/member: --exclude 'foo.bar.baz'
          Exclude 'foo' kwarg:                 --exclude 'somemodule.func(foo)'
          Exclude 'bar' codecs error handler:  --exclude 'ceh=bar'
          Exclude 'baz' codecs encoding:       --exclude 'ce=baz'"]);
    (* 153-155 *) (OnlyFull, [Txt "
  [--exclude-file <file name>] ...
        Exclude full names like --exclude but from a specified file instead. Each
        line constitutes an exclusion with the same format as with --exclude."]);
    (* 156-157 *) (OnlyFull, [Txt "
  --no-exclude (default)
        Use no excludes. Clears any excludes specified before this."]);
    (* 158-169 *) (OnlyFull, [Txt "
  [--exclude-regex <regex pattern>] ...
        Exclude files from analysis by matching a regex pattern against their
        entire path as expanded from the Vermin command line. Patterns are matched
        using re.search(), so '^' or '$' anchors should be applied as needed.

        Examples:
          Exclude any '.pyi' file:                --exclude-regex '\.pyi$'

          (Note: the below examples require --no-make-paths-absolute, or prefixing
          the patterns with the regex-escaped path to the current directory.)

          Exclude the directory 'a/b/':           --exclude-regex '^a/b$'
            (This will also exclude any files under 'a/b'.)

          Exclude '.pyi' files under 'a/b/':      --exclude-regex '^a/b/.+\.pyi$'
          Exclude '.pyi' files in exactly 'a/b/': --exclude-regex '^a/b/[^/]+\.pyi$'"]);
    (* 170-171 *) (OnlyFull, [Txt "
  --no-exclude-regex (default)
        Use no exclude patterns. Clears any exclude patterns specified before this."]);
    (* 172-175 *) (OnlyFull, [Txt "
  --make-paths-absolute (default)
        Convert any relative paths from the command line into absolute paths.
        This affects the path printed to the terminal if a file fails a check,
        and requires --exclude-regex patterns to match absolute paths."]);
    (* 176-177 *) (OnlyFull, [Txt "
  --no-make-paths-absolute
        Do not convert relative paths from the command line into absolute paths."]);
    (* 178-185 *) (OnlyFull, [Txt "
  [--backport <name>] ...
        Some features are sometimes backported into packages, in repositories such
        as PyPi, that are widely used but aren't in the standard language. If such a
        backport is specified as being used, the results will reflect that instead.
        Versioned backports are only used when minimum versions change. Unversioned
        backports must be the newest among versioned and unversioned.

        Supported backports:
"; HBackports]);
    (* 186-187 *) (OnlyFull, [Txt "
  --no-backport (default)
        Use no backports. Clears any backports specified before this."]);
    (* 188-190 *) (OnlyFull, [Txt "
  [--feature <name>] ...
        Some features are disabled by default due to being unstable:
"; HFeatures]);
    (* 191-192 *) (OnlyFull, [Txt "
  --no-feature (default)
        Use no features. Clears any features specified before this."]) ].
