(** GENERATED by tools/gen_rules.py from the text of /repo/vermin/rules.py, backports.py, features.py,
    detection.py and formats/__init__.py. Do not edit. *)
From Verif Require Import PyBase.

(** A rule's requirement expression as written in rules.py: a constant pair, [bpv(name, default,
    config)] (rules.py:7-14), or [X if not bp(name, config) else Y] (rules.py:3-5). *)
Inductive reqx : Set :=
| RConst (m : mins)
| RBpv (name : string) (default : mins)
| RIfNot (name : string) (yes no : reqx).

(** A key of CODECS_ENCODINGS: a tuple of names, or a bare str such as ("bz2") (rules.py:3803-3847),
    for which Python's [in] is a substring test. *)
Inductive enckey : Set :=
| EncNames (l : list string)
| EncSubstr (s : string).

(** rules.py:16-196 [MOD_REQS]. *)
Definition mod_reqs_x : list (string * reqx) :=
  [ ("BaseHTTPServer", RConst (Some (2, 0), None));
    ("ConfigParser", RConst (Some (2, 0), None));
    ("DocXMLRPCServer", RConst (Some (2, 3), None));
    ("HTMLParser", RConst (Some (2, 2), None));
    ("Queue", RConst (Some (2, 0), None));
    ("SimpleXMLRPCServer", RConst (Some (2, 2), None));
    ("SocketServer", RConst (Some (2, 0), None));
    ("Tkinter", RConst (Some (2, 0), None));
    ("__builtin__", RConst (Some (2, 0), None));
    ("__future__", RConst (Some (2, 1), Some (3, 0)));
    ("_ast", RConst (Some (2, 5), Some (3, 0)));
    ("_dummy_thread", RConst (None, Some (3, 0)));
    ("_markupbase", RConst (None, Some (3, 0)));
    ("_thread", RConst (None, Some (3, 0)));
    ("_winreg", RConst (Some (2, 0), None));
    ("abc", RConst (Some (2, 6), Some (3, 0)));
    ("argparse", RBpv "argparse" (Some (2, 7), Some (3, 2)));
    ("ast", RConst (Some (2, 6), Some (3, 0)));
    ("asyncio", RBpv "asyncio" (None, Some (3, 4)));
    ("asyncore", RConst (Some (2, 6), Some (3, 0)));
    ("atexit", RConst (Some (2, 0), Some (3, 0)));
    ("audioop", RConst (Some (2, 5), Some (3, 0)));
    ("bisect", RConst (Some (2, 1), Some (3, 0)));
    ("builtins", RConst (None, Some (3, 0)));
    ("bz2", RConst (Some (2, 3), Some (3, 0)));
    ("cProfile", RConst (Some (2, 5), Some (3, 0)));
    ("calendar", RConst (Some (2, 0), Some (3, 0)));
    ("cgitb", RConst (Some (2, 2), Some (3, 0)));
    ("collections", RConst (Some (2, 4), Some (3, 0)));
    ("collections.abc", RConst (None, Some (3, 3)));
    ("compileall", RConst (Some (2, 6), Some (3, 0)));
    ("concurrent.futures", RConst (None, Some (3, 2)));
    ("configparser", RBpv "configparser" (None, Some (3, 0)));
    ("contextlib", RConst (Some (2, 5), Some (3, 0)));
    ("contextvars", RBpv "contextvars" (None, Some (3, 7)));
    ("cookielib", RConst (Some (2, 4), None));
    ("copy_reg", RConst (Some (2, 0), None));
    ("copyreg", RConst (None, Some (3, 0)));
    ("csv", RConst (Some (2, 3), Some (3, 0)));
    ("ctypes", RConst (Some (2, 5), Some (3, 0)));
    ("dataclasses", RBpv "dataclasses" (None, Some (3, 7)));
    ("datetime", RConst (Some (2, 3), Some (3, 0)));
    ("dbm.dumb", RConst (None, Some (3, 0)));
    ("dbm.gnu", RConst (None, Some (3, 0)));
    ("dbm.io", RConst (None, Some (3, 0)));
    ("dbm.ndbm", RConst (None, Some (3, 0)));
    ("dbm.os", RConst (None, Some (3, 0)));
    ("dbm.struct", RConst (None, Some (3, 0)));
    ("dbm.sys", RConst (None, Some (3, 0)));
    ("dbm.whichdb", RConst (None, Some (3, 0)));
    ("decimal", RConst (Some (2, 4), Some (3, 0)));
    ("difflib", RConst (Some (2, 1), Some (3, 0)));
    ("dummy_thread", RConst (Some (2, 3), None));
    ("dummy_threading", RConst (Some (2, 3), None));
    ("email", RConst (Some (2, 2), Some (3, 0)));
    ("email.charset", RConst (Some (2, 2), Some (3, 0)));
    ("email.contentmanager", RConst (None, Some (3, 4)));
    ("email.errors", RConst (Some (2, 4), Some (3, 0)));
    ("email.header", RConst (Some (2, 2), Some (3, 0)));
    ("email.headerregistry", RConst (None, Some (3, 3)));
    ("email.message", RConst (Some (2, 2), Some (3, 0)));
    ("email.parser", RConst (Some (2, 2), Some (3, 0)));
    ("email.policy", RConst (None, Some (3, 3)));
    ("email.utils", RConst (Some (2, 2), Some (3, 0)));
    ("encodings.idna", RConst (Some (2, 3), Some (3, 0)));
    ("encodings.utf_8_sig", RConst (Some (2, 5), Some (3, 0)));
    ("ensurepip", RConst (Some (2, 7), Some (3, 4)));
    ("enum", RBpv "enum" (None, Some (3, 4)));
    ("faulthandler", RBpv "faulthandler" (None, Some (3, 3)));
    ("fractions", RConst (Some (2, 6), Some (3, 0)));
    ("functools", RConst (Some (2, 5), Some (3, 0)));
    ("future_builtins", RConst (Some (2, 6), None));
    ("graphlib", RConst (None, Some (3, 9)));
    ("hashlib", RConst (Some (2, 5), Some (3, 0)));
    ("heapq", RConst (Some (2, 3), Some (3, 0)));
    ("hmac", RConst (Some (2, 2), Some (3, 0)));
    ("hotshot", RConst (Some (2, 2), None));
    ("html", RConst (None, Some (3, 0)));
    ("htmlentitydefs", RConst (Some (2, 0), None));
    ("http", RConst (None, Some (3, 0)));
    ("http.cookiejar", RConst (None, Some (3, 0)));
    ("http.server", RConst (None, Some (3, 0)));
    ("imghdr", RConst (Some (2, 5), Some (3, 0)));
    ("imp", RConst (Some (2, 0), Some (3, 0)));
    ("importlib", RBpv "importlib" (Some (2, 7), Some (3, 1)));
    ("importlib.metadata", RConst (None, Some (3, 8)));
    ("importlib.resources", RConst (None, Some (3, 7)));
    ("importlib.resources.abc", RConst (None, Some (3, 11)));
    ("inspect", RConst (Some (2, 1), Some (3, 0)));
    ("io", RConst (Some (2, 6), Some (3, 0)));
    ("ipaddress", RBpv "ipaddress" (None, Some (3, 3)));
    ("itertools", RConst (Some (2, 3), Some (3, 0)));
    ("json", RConst (Some (2, 6), Some (3, 0)));
    ("locale", RConst (Some (2, 0), Some (3, 0)));
    ("logging", RConst (Some (2, 3), Some (3, 0)));
    ("logging.config", RConst (Some (2, 3), Some (3, 0)));
    ("logging.handlers", RConst (Some (2, 3), Some (3, 0)));
    ("lzma", RConst (None, Some (3, 3)));
    ("markupbase", RConst (Some (2, 0), None));
    ("md5", RConst (Some (2, 0), None));
    ("modulefinder", RConst (Some (2, 3), Some (3, 0)));
    ("msilib", RConst (Some (2, 5), Some (3, 0)));
    ("multiprocessing", RConst (Some (2, 6), Some (3, 0)));
    ("multiprocessing.pool", RConst (None, Some (3, 0)));
    ("multiprocessing.shared_memory", RConst (None, Some (3, 8)));
    ("new", RConst (Some (2, 0), None));
    ("numbers", RConst (Some (2, 6), Some (3, 0)));
    ("optparse", RConst (Some (2, 3), Some (3, 0)));
    ("ossaudiodev", RConst (Some (2, 3), Some (3, 0)));
    ("pathlib", RConst (None, Some (3, 4)));
    ("pdb", RConst (Some (2, 0), Some (3, 0)));
    ("pickletools", RConst (Some (2, 3), Some (3, 0)));
    ("pkgutil", RConst (Some (2, 3), Some (3, 0)));
    ("platform", RConst (Some (2, 3), Some (3, 0)));
    ("popen2", RConst (Some (2, 0), None));
    ("pyclbr", RConst (Some (2, 0), Some (3, 0)));
    ("pydoc", RConst (Some (2, 1), Some (3, 0)));
    ("queue", RConst (None, Some (3, 0)));
    ("random", RConst (Some (2, 0), Some (3, 0)));
    ("repr", RConst (Some (2, 0), None));
    ("reprlib", RConst (None, Some (3, 0)));
    ("runpy", RConst (Some (2, 5), Some (3, 0)));
    ("secrets", RConst (None, Some (3, 6)));
    ("selectors", RConst (None, Some (3, 4)));
    ("sets", RConst (Some (2, 3), None));
    ("socket", RConst (Some (2, 0), Some (3, 0)));
    ("socketserver", RConst (None, Some (3, 0)));
    ("spwd", RConst (Some (2, 5), Some (3, 0)));
    ("sqlite3", RConst (Some (2, 5), Some (3, 0)));
    ("ssl", RConst (Some (2, 6), Some (3, 0)));
    ("statistics", RBpv "statistics" (None, Some (3, 4)));
    ("stringprep", RConst (Some (2, 3), Some (3, 0)));
    ("subprocess", RConst (Some (2, 4), Some (3, 0)));
    ("sysconfig", RConst (Some (2, 7), Some (3, 2)));
    ("tarfile", RConst (Some (2, 3), Some (3, 0)));
    ("test.support.bytecode_helper", RConst (None, Some (3, 9)));
    ("test.support.import_helper", RConst (None, Some (3, 10)));
    ("test.support.os_helper", RConst (None, Some (3, 10)));
    ("test.support.socket_helper", RConst (None, Some (3, 9)));
    ("test.support.threading_helper", RConst (None, Some (3, 10)));
    ("test.support.warnings_helper", RConst (None, Some (3, 10)));
    ("textwrap", RConst (Some (2, 3), Some (3, 0)));
    ("timeit", RConst (Some (2, 3), Some (3, 0)));
    ("tkinter", RConst (None, Some (3, 0)));
    ("tomllib", RConst (None, Some (3, 11)));
    ("tracemalloc", RConst (None, Some (3, 4)));
    ("typing", RBpv "typing" (None, Some (3, 5)));
    ("typing_extensions", RBpv "typing_extensions" (Some (0, 0), Some (0, 0)));
    ("unittest", RConst (Some (2, 1), Some (3, 0)));
    ("unittest.mock", RConst (None, Some (3, 3)));
    ("urllib.parse", RConst (None, Some (3, 0)));
    ("urllib2", RConst (Some (2, 0), None));
    ("urlparse", RConst (Some (2, 0), None));
    ("uuid", RConst (Some (2, 5), Some (3, 0)));
    ("venv", RConst (None, Some (3, 3)));
    ("warnings", RConst (Some (2, 1), Some (3, 0)));
    ("weakref", RConst (Some (2, 1), Some (3, 0)));
    ("webbrowser", RConst (Some (2, 0), Some (3, 0)));
    ("winreg", RConst (None, Some (3, 0)));
    ("wsgiref", RConst (Some (2, 5), Some (3, 0)));
    ("wsgiref.types", RConst (None, Some (3, 11)));
    ("xml.dom", RConst (Some (2, 0), Some (3, 0)));
    ("xml.dom.minidom", RConst (Some (2, 0), Some (3, 0)));
    ("xml.dom.pulldom", RConst (Some (2, 0), Some (3, 0)));
    ("xml.etree.ElementInclude", RConst (Some (2, 5), Some (3, 0)));
    ("xml.etree.ElementTree", RConst (Some (2, 5), Some (3, 0)));
    ("xml.parsers.expat", RConst (Some (2, 0), Some (3, 0)));
    ("xml.sax", RConst (Some (2, 0), Some (3, 0)));
    ("xml.sax.handler", RConst (Some (2, 0), Some (3, 0)));
    ("xml.sax.saxutils", RConst (Some (2, 0), Some (3, 0)));
    ("xml.sax.xmlreader", RConst (Some (2, 0), Some (3, 0)));
    ("xmlrpc", RConst (None, Some (3, 0)));
    ("xmlrpc.client", RConst (None, Some (3, 0)));
    ("xmlrpc.server", RConst (None, Some (3, 0)));
    ("xmlrpclib", RConst (Some (2, 2), None));
    ("zipapp", RConst (None, Some (3, 5)));
    ("zipimport", RConst (Some (2, 3), Some (3, 0)));
    ("zoneinfo", RBpv "zoneinfo" (None, Some (3, 9))) ].

(** rules.py:199-2852 [MOD_MEM_REQS]. *)
Definition mod_mem_reqs_x_0 : list (string * reqx) :=
  [ ("bool", RConst (Some (2, 2), Some (3, 0)));
    ("bytearray", RConst (Some (2, 6), Some (3, 0)));
    ("frozenset", RConst (Some (2, 4), Some (3, 0)));
    ("memoryview", RConst (Some (2, 7), Some (3, 0)));
    ("object", RConst (Some (2, 2), Some (3, 0)));
    ("set", RConst (Some (2, 4), Some (3, 0)));
    ("dict", RConst (Some (2, 2), Some (3, 0)));
    ("long", RConst (Some (2, 0), None));
    ("ConfigParser.ConfigParser", RConst (Some (2, 3), None));
    ("ConfigParser.RawConfigParser", RConst (Some (2, 3), None));
    ("ConfigParser.SafeConfigParser", RConst (Some (2, 3), None));
    ("Queue.LifoQueue", RConst (Some (2, 6), None));
    ("Queue.PriorityQueue", RConst (Some (2, 6), None));
    ("SimpleXMLRPCServer.CGIXMLRPCRequestHandler", RConst (Some (2, 3), None));
    ("abc.ABC", RConst (None, Some (3, 4)));
    ("argparse.BooleanOptionalAction", RConst (None, Some (3, 9)));
    ("asyncio.Barrier", RConst (None, Some (3, 11)));
    ("asyncio.BufferedProtocol", RConst (None, Some (3, 7)));
    ("asyncio.MultiLoopChildWatcher", RConst (None, Some (3, 8)));
    ("asyncio.PidfdChildWatcher", RConst (None, Some (3, 9)));
    ("asyncio.Runner", RConst (None, Some (3, 11)));
    ("asyncio.TaskGroup", RConst (None, Some (3, 11)));
    ("asyncio.ThreadedChildWatcher", RConst (None, Some (3, 8)));
    ("calendar.Calendar", RConst (Some (2, 5), Some (3, 0)));
    ("calendar.Day", RConst (None, Some (3, 12)));
    ("calendar.HTMLCalendar", RConst (Some (2, 5), Some (3, 0)));
    ("calendar.LocaleHTMLCalendar", RConst (Some (2, 5), Some (3, 0)));
    ("calendar.LocaleTextCalendar", RConst (Some (2, 5), Some (3, 0)));
    ("calendar.Month", RConst (None, Some (3, 12)));
    ("calendar.TextCalendar", RConst (Some (2, 5), Some (3, 0)));
    ("codecs.IncrementalEncoder", RConst (Some (2, 5), Some (3, 0)));
    ("collections.ChainMap", RConst (None, Some (3, 3)));
    ("collections.Counter", RConst (Some (2, 7), Some (3, 1)));
    ("collections.OrderedDict", RConst (Some (2, 7), Some (3, 1)));
    ("collections.UserDict", RConst (None, Some (3, 0)));
    ("collections.UserList", RConst (None, Some (3, 0)));
    ("collections.UserString", RConst (None, Some (3, 0)));
    ("collections.abc.AsyncGenerator", RConst (None, Some (3, 6)));
    ("collections.abc.AsyncIterable", RConst (None, Some (3, 5)));
    ("collections.abc.AsyncIterator", RConst (None, Some (3, 5)));
    ("collections.abc.Awaitable", RConst (None, Some (3, 5)));
    ("collections.abc.Buffer", RConst (None, Some (3, 12)));
    ("collections.abc.Collection", RConst (None, Some (3, 6)));
    ("collections.abc.Coroutine", RConst (None, Some (3, 5)));
    ("collections.abc.Generator", RConst (None, Some (3, 5)));
    ("collections.abc.Reversible", RConst (None, Some (3, 6)));
    ("collections.defaultdict", RConst (Some (2, 5), Some (3, 0)));
    ("collections.deque", RConst (Some (2, 4), Some (3, 0)));
    ("collections.namedtuple", RConst (Some (2, 6), Some (3, 0)));
    ("contextlib.AbstractAsyncContextManager", RConst (None, Some (3, 7)));
    ("contextlib.AbstractContextManager", RConst (None, Some (3, 6)));
    ("contextlib.AsyncContextDecorator", RConst (None, Some (3, 10)));
    ("contextlib.AsyncExitStack", RConst (None, Some (3, 7)));
    ("contextlib.ContextDecorator", RConst (None, Some (3, 2)));
    ("contextlib.ExitStack", RConst (None, Some (3, 3)));
    ("csv.unix_dialect", RConst (None, Some (3, 2)));
    ("ctypes.BigEndianUnion", RConst (None, Some (3, 11)));
    ("ctypes.LittleEndianUnion", RConst (None, Some (3, 11)));
    ("ctypes.c_bool", RConst (Some (2, 6), Some (3, 0)));
    ("ctypes.c_longdouble", RConst (Some (2, 6), Some (3, 0)));
    ("ctypes.c_ssize_t", RConst (Some (2, 7), Some (3, 2)));
    ("datetime.timezone", RConst (None, Some (3, 2)));
    ("difflib.HtmlDiff", RConst (Some (2, 4), Some (3, 0)));
    ("dis.Bytecode", RConst (None, Some (3, 4)));
    ("dis.Instruction", RConst (None, Some (3, 4)));
    ("dis.Positions", RConst (None, Some (3, 11)));
    ("doctest.DocTest", RConst (Some (2, 4), Some (3, 0)));
    ("doctest.DocTestFinder", RConst (Some (2, 4), Some (3, 0)));
    ("doctest.DocTestParser", RConst (Some (2, 4), Some (3, 0)));
    ("doctest.DocTestRunner", RConst (Some (2, 4), Some (3, 0)));
    ("doctest.Example", RConst (Some (2, 4), Some (3, 0)));
    ("doctest.OutputChecker", RConst (Some (2, 4), Some (3, 0)));
    ("email.generator.BytesGenerator", RConst (None, Some (3, 2)));
    ("email.generator.DecodedGenerator", RConst (Some (2, 2), Some (3, 0)));
    ("email.mime.application.MIMEApplication", RConst (Some (2, 5), Some (3, 0)));
    ("email.mime.multipart.MIMEMultipart", RConst (Some (2, 2), Some (3, 0)));
    ("email.mime.nonmultipart.MIMENonMultipart", RConst (Some (2, 2), Some (3, 0)));
    ("email.parser.BytesFeedParser", RConst (None, Some (3, 2)));
    ("email.parser.BytesHeaderParser", RConst (None, Some (3, 3)));
    ("email.parser.BytesParser", RConst (None, Some (3, 2)));
    ("email.parser.FeedParser", RConst (Some (2, 4), Some (3, 0)));
    ("email.policy.EmailPolicy", RConst (None, Some (3, 3)));
    ("enum.EnumCheck", RConst (None, Some (3, 11)));
    ("enum.Flag", RConst (None, Some (3, 6)));
    ("enum.FlagBoundary", RConst (None, Some (3, 11)));
    ("enum.IntFlag", RConst (None, Some (3, 6)));
    ("enum.StrEnum", RConst (None, Some (3, 11)));
    ("enum.auto", RConst (None, Some (3, 6)));
    ("ftplib.FTP_TLS", RConst (Some (2, 7), Some (3, 2)));
    ("functools.partialmethod", RConst (None, Some (3, 4)));
    ("http.HTTPMethod", RConst (None, Some (3, 11)));
    ("http.HTTPStatus", RConst (None, Some (3, 5)));
    ("http.server.ThreadingHTTPServer", RConst (None, Some (3, 7)));
    ("httplib.HTTPConnection", RConst (Some (2, 0), None));
    ("httplib.HTTPResponse", RConst (Some (2, 0), None));
    ("httplib.HTTPSConnection", RConst (Some (2, 0), None));
    ("imaplib.IMAP4_stream", RConst (Some (2, 3), Some (3, 0)));
    ("imp.NullImporter", RConst (Some (2, 5), Some (3, 0)));
    ("importlib.abc.FileLoader", RConst (None, Some (3, 3)));
    ("importlib.abc.MetaPathFinder", RConst (None, Some (3, 3)));
    ("importlib.abc.PathEntryFinder", RConst (None, Some (3, 3)));
    ("importlib.abc.ResourceReader", RConst (None, Some (3, 7)));
    ("importlib.abc.Traversable", RConst (None, Some (3, 9)));
    ("importlib.abc.TraversableReader", RConst (None, Some (3, 9)));
    ("importlib.abc.TraversableResources", RConst (None, Some (3, 9)));
    ("importlib.machinery.ExtensionFileLoader", RConst (None, Some (3, 3)));
    ("importlib.machinery.FileFinder", RConst (None, Some (3, 3)));
    ("importlib.machinery.ModuleSpec", RConst (None, Some (3, 4)));
    ("importlib.machinery.NamespaceLoader", RConst (None, Some (3, 11)));
    ("importlib.machinery.SourceFileLoader", RConst (None, Some (3, 3)));
    ("importlib.machinery.SourcelessFileLoader", RConst (None, Some (3, 3)));
    ("importlib.machinery.WindowsRegistryFinder", RConst (None, Some (3, 3)));
    ("importlib.metadata.EntryPoints", RConst (None, Some (3, 10)));
    ("importlib.util.LazyLoader", RConst (None, Some (3, 5)));
    ("inspect.BoundArguments", RConst (None, Some (3, 3)));
    ("inspect.BufferFlags", RConst (None, Some (3, 12)));
    ("inspect.Parameter", RConst (None, Some (3, 3)));
    ("inspect.Signature", RConst (None, Some (3, 3)));
    ("logging.LoggerAdapter", RConst (Some (2, 6), Some (3, 0)));
    ("logging.NullHandler", RConst (Some (2, 7), Some (3, 1)));
    ("logging.StreamHandler", RConst (Some (2, 6), Some (3, 0)));
    ("logging.handlers.QueueHandler", RConst (None, Some (3, 2)));
    ("logging.handlers.QueueListener", RConst (None, Some (3, 2)));
    ("logging.handlers.WatchedFileHandler", RConst (Some (2, 6), Some (3, 0)));
    ("multiprocessing.Barrier", RConst (None, Some (3, 3)));
    ("nntplib.NNTP_SSL", RConst (None, Some (3, 2)));
    ("os.DirEntry", RConst (None, Some (3, 5)));
    ("os.PathLike", RConst (None, Some (3, 6)));
    ("os.sched_param", RConst (None, Some (3, 3)));
    ("os.terminal_size", RConst (None, Some (3, 3)));
    ("pickle.PickleBuffer", RConst (None, Some (3, 8)));
    ("pkgutil.ModuleInfo", RConst (None, Some (3, 6)));
    ("plistlib.UID", RConst (None, Some (3, 8)));
    ("popen2.Popen4", RConst (Some (2, 0), None));
    ("poplib.POP3_SSL", RConst (Some (2, 4), Some (3, 0)));
    ("pstats.FunctionProfile", RConst (None, Some (3, 9)));
    ("pstats.Stats", RConst (Some (2, 3), Some (3, 0)));
    ("pstats.StatsProfile", RConst (None, Some (3, 9)));
    ("py_compile.PycInvalidationMode", RConst (None, Some (3, 7)));
    ("queue.SimpleQueue", RConst (None, Some (3, 7)));
    ("random.SystemRandom", RConst (Some (2, 4), Some (3, 0)));
    ("selectors.DevpollSelector", RConst (None, Some (3, 5)));
    ("signals.Handlers", RConst (None, Some (3, 5)));
    ("signals.Sigmasks", RConst (None, Some (3, 5)));
    ("signals.Signals", RConst (None, Some (3, 5)));
    ("smtplib.LMTP", RConst (Some (2, 6), Some (3, 0)));
    ("smtplib.SMTP_SSL", RConst (Some (2, 6), Some (3, 0)));
    ("sqlite3.Blob", RConst (None, Some (3, 11)));
    ("ssl.AlertDescription", RConst (None, Some (3, 6)));
    ("ssl.MemoryBIO", RConst (None, Some (3, 5)));
    ("ssl.Options", RConst (None, Some (3, 6)));
    ("ssl.SSLContext", RConst (Some (2, 7), Some (3, 2)));
    ("ssl.SSLErrorNumber", RConst (None, Some (3, 6)));
    ("ssl.SSLObject", RConst (None, Some (3, 5)));
    ("ssl.SSLSession", RConst (None, Some (3, 6)));
    ("ssl.TLSVersion", RConst (None, Some (3, 7)));
    ("ssl.VerifyFlags", RConst (None, Some (3, 6)));
    ("ssl.VerifyMode", RConst (None, Some (3, 6)));
    ("statistics.NormalDist", RConst (None, Some (3, 8)));
    ("string.Formatter", RConst (Some (2, 6), Some (3, 0)));
    ("string.Template", RConst (Some (2, 4), Some (3, 0)));
    ("struct.Struct", RConst (Some (2, 5), Some (3, 0)));
    ("subprocess.CompletedProcess", RConst (None, Some (3, 5)));
    ("test.support.EnvironmentVarGuard", RConst (Some (2, 6), None));
    ("test.support.TransientResource", RConst (Some (2, 6), None));
    ("test.support.WarningsRecorder", RConst (Some (2, 6), None));
    ("test.support.os_helper.EnvironmentVarGuard", RConst (None, Some (3, 10)));
    ("test.support.socket_helper.TransientResource", RConst (None, Some (3, 9)));
    ("test.support.warnings_helper.WarningsRecorder", RConst (None, Some (3, 10)));
    ("threading.Barrier", RConst (None, Some (3, 2)));
    ("threading.local", RConst (Some (2, 4), Some (3, 0)));
    ("time.struct_time", RConst (Some (2, 2), Some (3, 0)));
    ("traceback.FrameSummary", RConst (None, Some (3, 5)));
    ("traceback.StackSummary", RConst (None, Some (3, 5)));
    ("traceback.TracebackException", RConst (None, Some (3, 5)));
    ("tracemalloc.DomainFilter", RConst (None, Some (3, 6)));
    ("types.GenericAlias", RConst (None, Some (3, 9)));
    ("types.MappingProxyType", RConst (None, Some (3, 3)));
    ("types.SimpleNamespace", RConst (None, Some (3, 3)));
    ("typing.AsyncContextManager", RConst (None, Some (3, 5)));
    ("typing.AsyncGenerator", RConst (None, Some (3, 6)));
    ("typing.AsyncIterable", RConst (None, Some (3, 5)));
    ("typing.AsyncIterator", RConst (None, Some (3, 5)));
    ("typing.Awaitable", RConst (None, Some (3, 5)));
    ("typing.ChainMap", RIfNot "typing" (RConst (None, Some (3, 5))) (RConst (None, Some (3, 3))));
    ("typing.Collection", RConst (None, Some (3, 6)));
    ("typing.ContextManager", RIfNot "typing" (RConst (None, Some (3, 5))) (RConst (Some (2, 7), Some (3, 3))));
    ("typing.Coroutine", RConst (None, Some (3, 5)));
    ("typing.Counter", RIfNot "typing" (RConst (None, Some (3, 5))) (RConst (Some (2, 7), Some (3, 3))));
    ("typing.Deque", RIfNot "typing" (RConst (None, Some (3, 5))) (RConst (Some (2, 7), Some (3, 3))));
    ("typing.ForwardRef", RConst (None, Some (3, 7)));
    ("typing.NamedTuple", RConst (None, Some (3, 5)));
    ("typing.OrderedDict", RConst (None, Some (3, 7)));
    ("typing.Protocol", RIfNot "typing" (RConst (None, Some (3, 8))) (RConst (Some (2, 7), Some (3, 8))));
    ("typing.ParamSpec", RConst (None, Some (3, 10)));
    ("typing.SupportsBytes", RIfNot "typing" (RConst (None, Some (3, 5))) (RConst (None, Some (3, 2))));
    ("typing.SupportsIndex", RIfNot "typing" (RConst (None, Some (3, 8))) (RConst (Some (2, 7), Some (3, 4))));
    ("typing.SupportsRound", RIfNot "typing" (RConst (None, Some (3, 5))) (RConst (None, Some (3, 2))));
    ("typing.TypedDict", RIfNot "typing" (RConst (None, Some (3, 8))) (RConst (Some (2, 7), Some (3, 8))));
    ("typing.TypeAliasType", RConst (None, Some (3, 12))) ].
Definition mod_mem_reqs_x_1 : list (string * reqx) :=
  [ ("unittest.IsolatedAsyncioTestCase", RConst (None, Some (3, 8)));
    ("unittest.TextTestResult", RConst (Some (2, 7), Some (3, 2)));
    ("unittest.mock.AsyncMock", RBpv "mock" (None, Some (3, 8)));
    ("urllib.parse.DefragResult", RConst (None, Some (3, 2)));
    ("urllib.parse.DefragResultBytes", RConst (None, Some (3, 2)));
    ("urllib.parse.ParseResultBytes", RConst (None, Some (3, 2)));
    ("urllib.parse.SplitResultBytes", RConst (None, Some (3, 2)));
    ("urllib.request.DataHandler", RConst (None, Some (3, 4)));
    ("urllib.request.HTTPPasswordMgrWithPriorAuth", RConst (None, Some (3, 5)));
    ("urllib2.HTTPCookieProcessor", RConst (Some (2, 4), None));
    ("urllib2.HTTPErrorProcessor", RConst (Some (2, 4), None));
    ("uuid.SafeUUID", RConst (None, Some (3, 7)));
    ("warnings.catch_warnings", RConst (Some (2, 6), Some (3, 0)));
    ("weakref.WeakMethod", RConst (None, Some (3, 4)));
    ("weakref.WeakSet", RConst (Some (2, 7), Some (3, 0)));
    ("weakref.finalize", RConst (None, Some (3, 4)));
    ("wsgiref.handlers.IISCGIHandler", RConst (None, Some (3, 2)));
    ("xml.etree.ElementTree.C14NWriterTarget", RConst (None, Some (3, 8)));
    ("xml.etree.ElementTree.XMLPullParser", RConst (None, Some (3, 4)));
    ("xml.sax.handler.LexicalHandler", RConst (None, Some (3, 10)));
    ("xmlrpclib.MultiCall", RConst (Some (2, 4), None));
    ("zipfile.Path", RConst (None, Some (3, 8)));
    ("zipimport.zipimporter", RConst (Some (2, 7), Some (3, 0)));
    ("BaseException", RConst (Some (2, 5), Some (3, 0)));
    ("exceptions.BaseException", RConst (Some (2, 5), None));
    ("BaseExceptionGroup", RConst (None, Some (3, 11)));
    ("BlockingIOError", RConst (None, Some (3, 3)));
    ("BrokenPipeError", RConst (None, Some (3, 3)));
    ("BytesWarning", RConst (Some (2, 6), Some (3, 0)));
    ("exceptions.BytesWarning", RConst (Some (2, 6), None));
    ("ChildProcessError", RConst (None, Some (3, 3)));
    ("ConnectionAbortedError", RConst (None, Some (3, 3)));
    ("ConnectionError", RConst (None, Some (3, 3)));
    ("ConnectionRefusedError", RConst (None, Some (3, 3)));
    ("ConnectionResetError", RConst (None, Some (3, 3)));
    ("EncodingWarning", RConst (None, Some (3, 10)));
    ("ExceptionGroup", RConst (None, Some (3, 11)));
    ("FileExistsError", RConst (None, Some (3, 3)));
    ("FileNotFoundError", RConst (None, Some (3, 3)));
    ("GeneratorExit", RConst (Some (2, 5), Some (3, 0)));
    ("exceptions.GeneratorExit", RConst (Some (2, 5), None));
    ("ImportWarning", RConst (Some (2, 5), Some (3, 0)));
    ("exceptions.ImportWarning", RConst (Some (2, 5), None));
    ("InterruptedError", RConst (None, Some (3, 3)));
    ("IsADirectoryError", RConst (None, Some (3, 3)));
    ("ModuleNotFoundError", RConst (None, Some (3, 6)));
    ("NotADirectoryError", RConst (None, Some (3, 3)));
    ("PermissionError", RConst (None, Some (3, 3)));
    ("ProcessLookupError", RConst (None, Some (3, 3)));
    ("RecursionError", RConst (None, Some (3, 5)));
    ("ReferenceError", RConst (Some (2, 2), Some (3, 0)));
    ("exceptions.ReferenceError", RConst (Some (2, 2), None));
    ("ResourceWarning", RConst (None, Some (3, 2)));
    ("StopAsyncIteration", RConst (None, Some (3, 5)));
    ("StopIteration", RConst (Some (2, 2), Some (3, 0)));
    ("exceptions.StopIteration", RConst (Some (2, 2), None));
    ("TimeoutError", RConst (None, Some (3, 3)));
    ("UnicodeDecodeError", RConst (Some (2, 3), Some (3, 0)));
    ("exceptions.UnicodeDecodeError", RConst (Some (2, 3), None));
    ("UnicodeEncodeError", RConst (Some (2, 3), Some (3, 0)));
    ("exceptions.UnicodeEncodeError", RConst (Some (2, 3), None));
    ("UnicodeTranslateError", RConst (Some (2, 3), Some (3, 0)));
    ("exceptions.UnicodeTranslateError", RConst (Some (2, 3), None));
    ("UnicodeWarning", RConst (Some (2, 5), Some (3, 0)));
    ("exceptions.UnicodeWarning", RConst (Some (2, 5), None));
    ("UnboundLocalError", RConst (Some (2, 0), Some (3, 0)));
    ("exceptions.UnboundLocalError", RConst (Some (2, 0), None));
    ("UnicodeError", RConst (Some (2, 0), Some (3, 0)));
    ("exceptions.UnicodeError", RConst (Some (2, 0), None));
    ("WindowsError", RConst (Some (2, 0), Some (3, 0)));
    ("exceptions.WindowsError", RConst (Some (2, 0), None));
    ("ConfigParser.InterpolationMissingOptionError", RConst (Some (2, 3), None));
    ("ConfigParser.InterpolationSyntaxError", RConst (Some (2, 3), None));
    ("concurrent.futures.BrokenExecutor", RConst (None, Some (3, 7)));
    ("concurrent.futures.InvalidStateError", RConst (None, Some (3, 8)));
    ("concurrent.futures.process.BrokenProcessPool", RConst (None, Some (3, 3)));
    ("concurrent.futures.thread.BrokenThreadPool", RConst (None, Some (3, 7)));
    ("email.errors.CloseBoundaryNotFoundDefect", RConst (None, Some (3, 3)));
    ("email.errors.FirstHeaderLineIsContinuationDefect", RConst (Some (2, 4), Some (3, 0)));
    ("email.errors.MalformedHeaderDefect", RConst (Some (2, 4), Some (3, 0)));
    ("email.errors.MisplacedEnvelopeHeaderDefect", RConst (Some (2, 4), Some (3, 0)));
    ("email.errors.MissingHeaderBodySeparatorDefect", RConst (None, Some (3, 3)));
    ("email.errors.MultipartInvariantViolationDefect", RConst (Some (2, 4), Some (3, 0)));
    ("email.errors.NoBoundaryInMultipartDefect", RConst (Some (2, 4), Some (3, 0)));
    ("email.errors.StartBoundaryNotFoundDefect", RConst (Some (2, 4), Some (3, 0)));
    ("gzip.BadGzipFile", RConst (None, Some (3, 8)));
    ("htmllib.HTMLParseError", RConst (Some (2, 4), None));
    ("httplib.BadStatusLine", RConst (Some (2, 0), None));
    ("httplib.CannotSendHeader", RConst (Some (2, 0), None));
    ("httplib.CannotSendRequest", RConst (Some (2, 0), None));
    ("httplib.HTTPException", RConst (Some (2, 0), None));
    ("httplib.ImproperConnectionState", RConst (Some (2, 0), None));
    ("httplib.IncompleteRead", RConst (Some (2, 0), None));
    ("httplib.InvalidURL", RConst (Some (2, 3), None));
    ("httplib.NotConnected", RConst (Some (2, 0), None));
    ("httplib.ResponseNotReady", RConst (Some (2, 0), None));
    ("httplib.UnimplementedFileMode", RConst (Some (2, 0), None));
    ("httplib.UnknownProtocol", RConst (Some (2, 0), None));
    ("httplib.UnknownTransferEncoding", RConst (Some (2, 0), None));
    ("json.JSONDecodeError", RConst (None, Some (3, 5)));
    ("sgmllib.SGMLParseError", RConst (Some (2, 1), None));
    ("shutil.Error", RConst (Some (2, 3), Some (3, 0)));
    ("shutil.SameFileError", RConst (None, Some (3, 4)));
    ("smtplib.SMTPNotSupportedError", RConst (None, Some (3, 5)));
    ("socket.timeout", RConst (Some (2, 3), Some (3, 0)));
    ("ssl.SSLCertVerificationError", RConst (None, Some (3, 7)));
    ("ssl.SSLEOFError", RConst (Some (2, 7), Some (3, 3)));
    ("ssl.SSLSyscallError", RConst (Some (2, 7), Some (3, 3)));
    ("ssl.SSLWantReadError", RConst (Some (2, 7), Some (3, 3)));
    ("ssl.SSLWantWriteError", RConst (Some (2, 7), Some (3, 3)));
    ("ssl.SSLZeroReturnError", RConst (Some (2, 7), Some (3, 3)));
    ("subprocess.SubprocessError", RConst (None, Some (3, 3)));
    ("subprocess.TimeoutExpired", RConst (None, Some (3, 3)));
    ("tarfile.HeaderError", RConst (Some (2, 6), Some (3, 0)));
    ("threading.BrokenBarrierError", RConst (None, Some (3, 2)));
    ("unittest.SkipTest", RConst (Some (2, 7), Some (3, 1)));
    ("urllib.ContentTooShortError", RConst (Some (2, 5), None));
    ("xml.dom.DOMException", RConst (Some (2, 1), Some (3, 0)));
    ("xml.dom.DomstringSizeErr", RConst (Some (2, 1), Some (3, 0)));
    ("xml.dom.HierarchyRequestErr", RConst (Some (2, 1), Some (3, 0)));
    ("xml.dom.IndexSizeErr", RConst (Some (2, 1), Some (3, 0)));
    ("xml.dom.InuseAttributeErr", RConst (Some (2, 1), Some (3, 0)));
    ("xml.dom.InvalidAccessErr", RConst (Some (2, 1), Some (3, 0)));
    ("xml.dom.InvalidCharacterErr", RConst (Some (2, 1), Some (3, 0)));
    ("xml.dom.InvalidModificationErr", RConst (Some (2, 1), Some (3, 0)));
    ("xml.dom.InvalidStateErr", RConst (Some (2, 1), Some (3, 0)));
    ("xml.dom.NamespaceErr", RConst (Some (2, 1), Some (3, 0)));
    ("xml.dom.NoDataAllowedErr", RConst (Some (2, 1), Some (3, 0)));
    ("xml.dom.NoModificationAllowedErr", RConst (Some (2, 1), Some (3, 0)));
    ("xml.dom.NotFoundErr", RConst (Some (2, 1), Some (3, 0)));
    ("xml.dom.NotSupportedErr", RConst (Some (2, 1), Some (3, 0)));
    ("xml.dom.SyntaxErr", RConst (Some (2, 1), Some (3, 0)));
    ("xml.dom.WrongDocumentErr", RConst (Some (2, 1), Some (3, 0)));
    ("zipfile.BadZipFile", RConst (None, Some (3, 2)));
    ("aiter", RConst (None, Some (3, 10)));
    ("all", RConst (Some (2, 5), Some (3, 0)));
    ("anext", RConst (None, Some (3, 10)));
    ("any", RConst (Some (2, 5), Some (3, 0)));
    ("basestring", RConst (Some (2, 3), None));
    ("bin", RConst (Some (2, 6), Some (3, 0)));
    ("breakpoint", RConst (None, Some (3, 7)));
    ("bytearray.hex", RConst (None, Some (3, 5)));
    ("bytearray.isascii", RConst (None, Some (3, 7)));
    ("bytearray.maketrans", RConst (None, Some (3, 1)));
    ("bytearray.removeprefix", RConst (None, Some (3, 9)));
    ("bytearray.removesuffix", RConst (None, Some (3, 9)));
    ("bytes.hex", RConst (None, Some (3, 5)));
    ("bytes.isascii", RConst (None, Some (3, 7)));
    ("bytes.maketrans", RConst (None, Some (3, 1)));
    ("bytes.removeprefix", RConst (None, Some (3, 9)));
    ("bytes.removesuffix", RConst (None, Some (3, 9)));
    ("callable", RConst (Some (2, 0), Some (3, 2)));
    ("classmethod", RConst (Some (2, 2), Some (3, 0)));
    ("dict.fromkeys", RConst (Some (2, 3), Some (3, 0)));
    ("dict.has_key", RConst (Some (2, 2), None));
    ("dict.iteritems", RConst (Some (2, 2), None));
    ("dict.iterkeys", RConst (Some (2, 2), None));
    ("dict.itervalues", RConst (Some (2, 2), None));
    ("dict.pop", RConst (Some (2, 3), Some (3, 0)));
    ("dict.viewitems", RConst (Some (2, 7), None));
    ("dict.viewkeys", RConst (Some (2, 7), None));
    ("dict.viewvalues", RConst (Some (2, 7), None));
    ("enumerate", RConst (Some (2, 3), Some (3, 0)));
    ("file", RConst (Some (2, 0), None));
    ("file.next", RConst (Some (2, 3), None));
    ("file.xreadlines", RConst (Some (2, 1), None));
    ("float.as_integer_ratio", RConst (Some (2, 6), Some (3, 0)));
    ("float.fromhex", RConst (Some (2, 6), Some (3, 0)));
    ("float.hex", RConst (Some (2, 6), Some (3, 0)));
    ("float.is_integer", RConst (Some (2, 6), Some (3, 0)));
    ("format", RConst (Some (2, 6), Some (3, 0)));
    ("frozenset.isdisjoint", RConst (Some (2, 6), Some (3, 0)));
    ("help", RConst (Some (2, 2), Some (3, 0)));
    ("int.as_integer_ratio", RConst (None, Some (3, 8)));
    ("int.bit_count", RConst (None, Some (3, 10)));
    ("int.bit_length", RConst (Some (2, 7), Some (3, 1)));
    ("int.from_bytes", RConst (None, Some (3, 2)));
    ("int.is_integer", RConst (None, Some (3, 12)));
    ("int.to_bytes", RConst (None, Some (3, 2)));
    ("iter", RConst (Some (2, 2), Some (3, 0)));
    ("list.clear", RConst (None, Some (3, 0)));
    ("list.copy", RConst (None, Some (3, 0)));
    ("long.bit_length", RConst (Some (2, 7), None));
    ("memoryview.cast", RConst (None, Some (3, 3)));
    ("memoryview.hex", RConst (None, Some (3, 5)));
    ("memoryview.release", RConst (None, Some (3, 2)));
    ("memoryview.toreadonly", RConst (None, Some (3, 8)));
    ("next", RConst (Some (2, 6), Some (3, 0)));
    ("property", RConst (Some (2, 2), Some (3, 0)));
    ("property.deleter", RConst (Some (2, 6), Some (3, 0)));
    ("property.getter", RConst (Some (2, 6), Some (3, 0)));
    ("property.setter", RConst (Some (2, 6), Some (3, 0)));
    ("reversed", RConst (Some (2, 4), Some (3, 0)));
    ("set.isdisjoint", RConst (Some (2, 6), Some (3, 0)));
    ("slice.indices", RConst (Some (2, 3), Some (3, 0)));
    ("sorted", RConst (Some (2, 4), Some (3, 0)));
    ("staticmethod", RConst (Some (2, 2), Some (3, 0)));
    ("str.casefold", RConst (None, Some (3, 3)));
    ("str.decode", RConst (Some (2, 2), None));
    ("str.encode", RConst (Some (2, 0), Some (3, 0))) ].
Definition mod_mem_reqs_x_2 : list (string * reqx) :=
  [ ("str.format", RConst (Some (2, 6), Some (3, 0)));
    ("str.format_map", RConst (None, Some (3, 2)));
    ("str.isascii", RConst (None, Some (3, 7)));
    ("str.isdecimal", RConst (None, Some (3, 0)));
    ("str.isidentifier", RConst (None, Some (3, 0)));
    ("str.isnumeric", RConst (None, Some (3, 0)));
    ("str.isprintable", RConst (None, Some (3, 0)));
    ("str.maketrans", RConst (None, Some (3, 0)));
    ("str.partition", RConst (Some (2, 5), Some (3, 0)));
    ("str.removeprefix", RConst (None, Some (3, 9)));
    ("str.removesuffix", RConst (None, Some (3, 9)));
    ("str.rpartition", RConst (Some (2, 5), Some (3, 0)));
    ("str.rsplit", RConst (Some (2, 4), Some (3, 0)));
    ("str.zfill", RConst (Some (2, 2), Some (3, 0)));
    ("sum", RConst (Some (2, 3), Some (3, 0)));
    ("super", RConst (Some (2, 2), Some (3, 0)));
    ("type", RConst (Some (2, 0), Some (3, 0)));
    ("unichr", RConst (Some (2, 0), None));
    ("unicode", RConst (Some (2, 0), None));
    ("unicode.isdecimal", RConst (Some (2, 0), None));
    ("unicode.isnumeric", RConst (Some (2, 0), None));
    ("zip", RConst (Some (2, 0), Some (3, 0)));
    ("memoryview.c_contiguous", RConst (None, Some (3, 3)));
    ("memoryview.contiguous", RConst (None, Some (3, 3)));
    ("memoryview.f_contiguous", RConst (None, Some (3, 3)));
    ("memoryview.nbytes", RConst (None, Some (3, 3)));
    ("memoryview.obj", RConst (None, Some (3, 3)));
    ("dict.items.mapping", RConst (None, Some (3, 10)));
    ("dict.keys.mapping", RConst (None, Some (3, 10)));
    ("dict.values.mapping", RConst (None, Some (3, 10)));
    ("BaseException.__notes__", RConst (None, Some (3, 11)));
    ("BaseException.add_note", RConst (None, Some (3, 11)));
    ("ConfigParser.SafeConfigParser.set", RConst (Some (2, 4), None));
    ("EasyDialogs.GetArgv", RConst (Some (2, 0), None));
    ("Queue.Queue.join", RConst (Some (2, 5), None));
    ("Queue.Queue.task_done", RConst (Some (2, 5), None));
    ("SimpleHTTPServer.SimpleHTTPRequestHandler.do_GET", RConst (Some (2, 5), None));
    ("SimpleXMLRPCServer.SimpleXMLRPCServer.register_introspection_functions", RConst (Some (2, 3), None));
    ("SocketServer.BaseServer.server_close", RConst (Some (2, 6), None));
    ("SocketServer.BaseServer.shutdown", RConst (Some (2, 6), None));
    ("Tkinter.Tcl", RConst (Some (2, 4), None));
    ("_thread.get_native_id", RConst (None, Some (3, 8)));
    ("_winreg.CreateKeyEx", RConst (Some (2, 7), None));
    ("_winreg.DeleteKeyEx", RConst (Some (2, 7), None));
    ("_winreg.ExpandEnvironmentStrings", RConst (Some (2, 6), None));
    ("abc.get_cache_token", RConst (None, Some (3, 4)));
    ("abc.update_abstractmethods", RConst (None, Some (3, 10)));
    ("argparse.ArgumentParser.parse_intermixed_args", RConst (None, Some (3, 7)));
    ("argparse.ArgumentParser.parse_known_intermixed_args", RConst (None, Some (3, 7)));
    ("array.array.frombytes", RConst (None, Some (3, 2)));
    ("array.array.tobytes", RConst (None, Some (3, 2)));
    ("ast.get_source_segment", RConst (None, Some (3, 8)));
    ("ast.unparse", RConst (None, Some (3, 9)));
    ("asyncio.AbstractChildWatcher.is_active", RConst (None, Some (3, 8)));
    ("asyncio.Future.get_loop", RConst (None, Some (3, 7)));
    ("asyncio.Handle.cancelled", RConst (None, Some (3, 7)));
    ("asyncio.ReadTransport.is_reading", RConst (None, Some (3, 7)));
    ("asyncio.Server.get_loop", RConst (None, Some (3, 7)));
    ("asyncio.Server.is_serving", RConst (None, Some (3, 7)));
    ("asyncio.Server.serve_forever", RConst (None, Some (3, 7)));
    ("asyncio.Server.start_serving", RConst (None, Some (3, 7)));
    ("asyncio.StreamReader.readuntil", RConst (None, Some (3, 5)));
    ("asyncio.StreamWriter.is_closing", RConst (None, Some (3, 7)));
    ("asyncio.StreamWriter.start_tls", RConst (None, Some (3, 11)));
    ("asyncio.StreamWriter.wait_closed", RConst (None, Some (3, 7)));
    ("asyncio.Task._check_future", RConst (None, Some (3, 11)));
    ("asyncio.Task.cancelling", RConst (None, Some (3, 11)));
    ("asyncio.Task.get_context", RConst (None, Some (3, 12)));
    ("asyncio.Task.get_coro", RConst (None, Some (3, 8)));
    ("asyncio.Task.get_name", RConst (None, Some (3, 8)));
    ("asyncio.Task.set_name", RConst (None, Some (3, 8)));
    ("asyncio.Task.uncancel", RConst (None, Some (3, 11)));
    ("asyncio.TimerHandle.when", RConst (None, Some (3, 7)));
    ("asyncio.WriteTransport.get_write_buffer_limits", RConst (None, Some (3, 4)));
    ("asyncio.all_tasks", RConst (None, Some (3, 7)));
    ("asyncio.create_eager_task_factory", RConst (None, Some (3, 12)));
    ("asyncio.create_task", RConst (None, Some (3, 7)));
    ("asyncio.current_task", RConst (None, Some (3, 7)));
    ("asyncio.eager_task_factory", RConst (None, Some (3, 12)));
    ("asyncio.get_running_loop", RConst (None, Some (3, 7)));
    ("asyncio.isfuture", RConst (None, Some (3, 5)));
    ("asyncio.loop.connect_accepted_socket", RConst (None, Some (3, 5)));
    ("asyncio.loop.create_future", RConst (None, Some (3, 5)));
    ("asyncio.loop.get_exception_handler", RConst (None, Some (3, 5)));
    ("asyncio.loop.sendfile", RConst (None, Some (3, 7)));
    ("asyncio.loop.shutdown_asyncgens", RConst (None, Some (3, 6)));
    ("asyncio.loop.shutdown_default_executor", RConst (None, Some (3, 9)));
    ("asyncio.loop.sock_recv_into", RConst (None, Some (3, 7)));
    ("asyncio.loop.sock_recvfrom", RConst (None, Some (3, 11)));
    ("asyncio.loop.sock_recvfrom_into", RConst (None, Some (3, 11)));
    ("asyncio.loop.sock_sendfile", RConst (None, Some (3, 7)));
    ("asyncio.loop.sock_sendto", RConst (None, Some (3, 11)));
    ("asyncio.loop.start_tls", RConst (None, Some (3, 7)));
    ("asyncio.run", RConst (None, Some (3, 7)));
    ("asyncio.run_coroutine_threadsafe", RConst (None, Some (3, 5)));
    ("asyncio.timeout", RConst (None, Some (3, 11)));
    ("asyncio.timeout_at", RConst (None, Some (3, 11)));
    ("asyncio.to_thread", RConst (None, Some (3, 9)));
    ("asyncore.dispatcher.handle_accepted", RConst (None, Some (3, 2)));
    ("audioop.alaw2lin", RConst (Some (2, 5), Some (3, 0)));
    ("audioop.byteswap", RConst (None, Some (3, 4)));
    ("audioop.lin2alaw", RConst (Some (2, 5), Some (3, 0)));
    ("base64.a85decode", RConst (None, Some (3, 4)));
    ("base64.a85encode", RConst (None, Some (3, 4)));
    ("base64.b32hexdecode", RConst (None, Some (3, 10)));
    ("base64.b32hexencode", RConst (None, Some (3, 10)));
    ("base64.b85decode", RConst (None, Some (3, 4)));
    ("base64.b85encode", RConst (None, Some (3, 4)));
    ("base64.decodebytes", RConst (None, Some (3, 1)));
    ("base64.encodebytes", RConst (None, Some (3, 1)));
    ("bdb.Bdb.get_bpbynumber", RConst (None, Some (3, 2)));
    ("bdb.Breakpoint.bpformat", RConst (None, Some (3, 2)));
    ("bdb.Breakpoint.clearBreakpoints", RConst (None, Some (3, 10)));
    ("bz2.BZ2File.fileno", RConst (None, Some (3, 3)));
    ("bz2.BZ2File.peek", RConst (None, Some (3, 3)));
    ("bz2.BZ2File.read1", RConst (None, Some (3, 3)));
    ("bz2.BZ2File.readable", RConst (None, Some (3, 3)));
    ("bz2.BZ2File.readinto", RConst (None, Some (3, 3)));
    ("bz2.BZ2File.seekable", RConst (None, Some (3, 3)));
    ("bz2.BZ2File.writable", RConst (None, Some (3, 3)));
    ("bz2.open", RConst (None, Some (3, 3)));
    ("calendar.Calendar.itermonthdays3", RConst (None, Some (3, 7)));
    ("calendar.Calendar.itermonthdays4", RConst (None, Some (3, 7)));
    ("cgi.FieldStorage.getfirst", RConst (Some (2, 2), Some (3, 0)));
    ("cgi.FieldStorage.getlist", RConst (Some (2, 2), Some (3, 0)));
    ("cmath.isclose", RConst (None, Some (3, 5)));
    ("cmath.isfinite", RConst (None, Some (3, 2)));
    ("cmath.isinf", RConst (Some (2, 6), Some (3, 0)));
    ("cmath.isnan", RConst (Some (2, 6), Some (3, 0)));
    ("cmath.phase", RConst (Some (2, 6), Some (3, 0)));
    ("cmath.polar", RConst (Some (2, 6), Some (3, 0)));
    ("cmath.rect", RConst (Some (2, 6), Some (3, 0)));
    ("codecs.decode", RConst (Some (2, 4), Some (3, 0)));
    ("codecs.encode", RConst (Some (2, 4), Some (3, 0)));
    ("codecs.getincrementaldecoder", RConst (Some (2, 5), Some (3, 0)));
    ("codecs.getincrementalencoder", RConst (Some (2, 5), Some (3, 0)));
    ("codecs.iterdecode", RConst (Some (2, 5), Some (3, 0)));
    ("codecs.iterencode", RConst (Some (2, 5), Some (3, 0)));
    ("codecs.namereplace_errors", RConst (None, Some (3, 5)));
    ("codecs.unregister", RConst (None, Some (3, 10)));
    ("collections.Counter.subtract", RConst (None, Some (3, 2)));
    ("collections.Counter.total", RConst (None, Some (3, 10)));
    ("collections.OrderedDict.move_to_end", RConst (None, Some (3, 2)));
    ("collections.UserString.__getnewargs__", RConst (None, Some (3, 5)));
    ("collections.UserString.__rmod__", RConst (None, Some (3, 5)));
    ("collections.UserString.casefold", RConst (None, Some (3, 5)));
    ("collections.UserString.format_map", RConst (None, Some (3, 5)));
    ("collections.UserString.isprintable", RConst (None, Some (3, 5)));
    ("collections.UserString.maketrans", RConst (None, Some (3, 5)));
    ("collections.abc.MutableSequence.clear", RConst (None, Some (3, 3)));
    ("collections.abc.MutableSequence.copy", RConst (None, Some (3, 3)));
    ("collections.deque.copy", RConst (None, Some (3, 5)));
    ("collections.deque.count", RConst (Some (2, 7), Some (3, 2)));
    ("collections.deque.index", RConst (None, Some (3, 5)));
    ("collections.deque.insert", RConst (None, Some (3, 5)));
    ("collections.deque.remove", RConst (Some (2, 5), Some (3, 0)));
    ("collections.deque.reverse", RConst (Some (2, 7), Some (3, 2)));
    ("compileall.compile_file", RConst (Some (2, 7), Some (3, 2)));
    ("configparser.ConfigParser.read_dict", RBpv "configparser" (None, Some (3, 2)));
    ("configparser.ConfigParser.read_file", RBpv "configparser" (None, Some (3, 2)));
    ("configparser.ConfigParser.read_string", RBpv "configparser" (None, Some (3, 2)));
    ("configparser.RawConfigParser.read_dict", RBpv "configparser" (None, Some (3, 2)));
    ("configparser.RawConfigParser.read_file", RBpv "configparser" (None, Some (3, 2)));
    ("configparser.RawConfigParser.read_string", RBpv "configparser" (None, Some (3, 2)));
    ("contextlib.aclosing", RConst (None, Some (3, 10)));
    ("contextlib.chdir", RConst (None, Some (3, 11)));
    ("contextlib.nullcontext", RConst (None, Some (3, 7)));
    ("contextlib.redirect_stderr", RConst (None, Some (3, 5)));
    ("contextlib.redirect_stdout", RConst (None, Some (3, 4)));
    ("contextlib.suppress", RConst (None, Some (3, 4)));
    ("crypt.mksalt", RConst (None, Some (3, 3)));
    ("csv.DictWriter.writeheader", RConst (Some (2, 7), Some (3, 2)));
    ("csv.field_size_limit", RConst (Some (2, 5), Some (3, 0)));
    ("ctypes._CData.from_buffer", RConst (Some (2, 6), Some (3, 0)));
    ("ctypes._CData.from_buffer_copy", RConst (Some (2, 6), Some (3, 0)));
    ("ctypes.get_errno", RConst (Some (2, 6), Some (3, 0)));
    ("ctypes.get_last_error", RConst (Some (2, 6), Some (3, 0)));
    ("ctypes.set_errno", RConst (Some (2, 6), Some (3, 0)));
    ("ctypes.set_last_error", RConst (Some (2, 6), Some (3, 0)));
    ("ctypes.util.find_msvcrt", RConst (Some (2, 6), Some (3, 0)));
    ("curses.get_escdelay", RConst (None, Some (3, 9)));
    ("curses.get_tabsize", RConst (None, Some (3, 9)));
    ("curses.has_extended_color_support", RConst (None, Some (3, 10)));
    ("curses.set_escdelay", RConst (None, Some (3, 9)));
    ("curses.set_tabsize", RConst (None, Some (3, 9)));
    ("curses.unget_wch", RConst (None, Some (3, 3)));
    ("curses.update_lines_cols", RConst (None, Some (3, 5)));
    ("curses.window.get_wch", RConst (None, Some (3, 3)));
    ("datetime.date.fromisocalendar", RConst (None, Some (3, 8)));
    ("datetime.date.fromisoformat", RConst (None, Some (3, 7)));
    ("datetime.datetime.fromisocalendar", RConst (None, Some (3, 8)));
    ("datetime.datetime.fromisoformat", RConst (None, Some (3, 7)));
    ("datetime.datetime.strptime", RConst (Some (2, 5), Some (3, 0)));
    ("datetime.datetime.timestamp", RConst (None, Some (3, 3)));
    ("datetime.time.fromisoformat", RConst (None, Some (3, 7)));
    ("datetime.timedelta.total_seconds", RConst (Some (2, 7), Some (3, 2)));
    ("decimal.Context.clear_traps", RConst (None, Some (3, 3)));
    ("decimal.Context.create_decimal_from_float", RConst (Some (2, 7), Some (3, 1)));
    ("decimal.Decimal.as_integer_ratio", RConst (None, Some (3, 6)));
    ("decimal.Decimal.canonical", RConst (Some (2, 6), Some (3, 0))) ].
Definition mod_mem_reqs_x_3 : list (string * reqx) :=
  [ ("decimal.Decimal.compare_signal", RConst (Some (2, 6), Some (3, 0)));
    ("decimal.Decimal.compare_total", RConst (Some (2, 6), Some (3, 0)));
    ("decimal.Decimal.compare_total_mag", RConst (Some (2, 6), Some (3, 0)));
    ("decimal.Decimal.conjugate", RConst (Some (2, 6), Some (3, 0)));
    ("decimal.Decimal.copy_abs", RConst (Some (2, 6), Some (3, 0)));
    ("decimal.Decimal.copy_negate", RConst (Some (2, 6), Some (3, 0)));
    ("decimal.Decimal.copy_sign", RConst (Some (2, 6), Some (3, 0)));
    ("decimal.Decimal.exp", RConst (Some (2, 6), Some (3, 0)));
    ("decimal.Decimal.fma", RConst (Some (2, 6), Some (3, 0)));
    ("decimal.Decimal.from_float", RConst (Some (2, 7), Some (3, 1)));
    ("decimal.Decimal.is_canonical", RConst (Some (2, 6), Some (3, 0)));
    ("decimal.Decimal.is_finite", RConst (Some (2, 6), Some (3, 0)));
    ("decimal.Decimal.is_infinite", RConst (Some (2, 6), Some (3, 0)));
    ("decimal.Decimal.is_nan", RConst (Some (2, 6), Some (3, 0)));
    ("decimal.Decimal.is_normal", RConst (Some (2, 6), Some (3, 0)));
    ("decimal.Decimal.is_qnan", RConst (Some (2, 6), Some (3, 0)));
    ("decimal.Decimal.is_signed", RConst (Some (2, 6), Some (3, 0)));
    ("decimal.Decimal.is_snan", RConst (Some (2, 6), Some (3, 0)));
    ("decimal.Decimal.is_subnormal", RConst (Some (2, 6), Some (3, 0)));
    ("decimal.Decimal.is_zero", RConst (Some (2, 6), Some (3, 0)));
    ("decimal.Decimal.ln", RConst (Some (2, 6), Some (3, 0)));
    ("decimal.Decimal.log10", RConst (Some (2, 6), Some (3, 0)));
    ("decimal.Decimal.logb", RConst (Some (2, 6), Some (3, 0)));
    ("decimal.Decimal.logical_and", RConst (Some (2, 6), Some (3, 0)));
    ("decimal.Decimal.logical_invert", RConst (Some (2, 6), Some (3, 0)));
    ("decimal.Decimal.logical_or", RConst (Some (2, 6), Some (3, 0)));
    ("decimal.Decimal.logical_xor", RConst (Some (2, 6), Some (3, 0)));
    ("decimal.Decimal.max_mag", RConst (Some (2, 6), Some (3, 0)));
    ("decimal.Decimal.min_mag", RConst (Some (2, 6), Some (3, 0)));
    ("decimal.Decimal.next_minus", RConst (Some (2, 6), Some (3, 0)));
    ("decimal.Decimal.next_plus", RConst (Some (2, 6), Some (3, 0)));
    ("decimal.Decimal.next_toward", RConst (Some (2, 6), Some (3, 0)));
    ("decimal.Decimal.number_class", RConst (Some (2, 6), Some (3, 0)));
    ("decimal.Decimal.radix", RConst (Some (2, 6), Some (3, 0)));
    ("decimal.Decimal.rotate", RConst (Some (2, 6), Some (3, 0)));
    ("decimal.Decimal.scaleb", RConst (Some (2, 6), Some (3, 0)));
    ("decimal.Decimal.shift", RConst (Some (2, 6), Some (3, 0)));
    ("decimal.Decimal.to_integral_exact", RConst (Some (2, 6), Some (3, 0)));
    ("decimal.Decimal.to_integral_value", RConst (Some (2, 6), Some (3, 0)));
    ("decimal.localcontext", RConst (Some (2, 5), Some (3, 0)));
    ("difflib.SequenceMatcher.get_grouped_opcodes", RConst (Some (2, 3), Some (3, 0)));
    ("difflib.context_diff", RConst (Some (2, 3), Some (3, 0)));
    ("difflib.diff_bytes", RConst (None, Some (3, 5)));
    ("difflib.unified_diff", RConst (Some (2, 3), Some (3, 0)));
    ("dis.code_info", RConst (None, Some (3, 2)));
    ("dis.get_instructions", RConst (None, Some (3, 4)));
    ("dis.show_code", RConst (None, Some (3, 2)));
    ("dis.stack_effect", RConst (None, Some (3, 4)));
    ("doctest.DocFileSuite", RConst (Some (2, 4), Some (3, 0)));
    ("doctest.DocTestSuite", RConst (Some (2, 3), Some (3, 0)));
    ("doctest.debug", RConst (Some (2, 3), Some (3, 0)));
    ("doctest.debug_src", RConst (Some (2, 4), Some (3, 0)));
    ("doctest.register_optionflag", RConst (Some (2, 4), Some (3, 0)));
    ("doctest.script_from_examples", RConst (Some (2, 4), Some (3, 0)));
    ("doctest.set_unittest_reportflags", RConst (Some (2, 4), Some (3, 0)));
    ("doctest.testfile", RConst (Some (2, 4), Some (3, 0)));
    ("doctest.testsource", RConst (Some (2, 3), Some (3, 0)));
    ("email.generator.Generator.clone", RConst (Some (2, 2), Some (3, 0)));
    ("email.generator.Generator.flatten", RConst (Some (2, 2), Some (3, 0)));
    ("email.message.EmailMessage.get_content_disposition", RConst (None, Some (3, 5)));
    ("email.message.Message.__bytes__", RConst (None, Some (3, 4)));
    ("email.message.Message.as_bytes", RConst (None, Some (3, 4)));
    ("email.message.Message.del_param", RConst (Some (2, 2), Some (3, 0)));
    ("email.message.Message.get_charset", RConst (Some (2, 2), Some (3, 0)));
    ("email.message.Message.get_content_charset", RConst (Some (2, 2), Some (3, 0)));
    ("email.message.Message.get_content_disposition", RConst (None, Some (3, 5)));
    ("email.message.Message.get_content_maintype", RConst (Some (2, 2), Some (3, 0)));
    ("email.message.Message.get_content_subtype", RConst (Some (2, 2), Some (3, 0)));
    ("email.message.Message.get_content_type", RConst (Some (2, 2), Some (3, 0)));
    ("email.message.Message.get_default_type", RConst (Some (2, 2), Some (3, 0)));
    ("email.message.Message.replace_header", RConst (Some (2, 2), Some (3, 0)));
    ("email.message.Message.set_charset", RConst (Some (2, 2), Some (3, 0)));
    ("email.message.Message.set_default_type", RConst (Some (2, 2), Some (3, 0)));
    ("email.message.Message.set_param", RConst (Some (2, 2), Some (3, 0)));
    ("email.message.Message.set_type", RConst (Some (2, 2), Some (3, 0)));
    ("email.message_from_binary_file", RConst (None, Some (3, 2)));
    ("email.message_from_bytes", RConst (None, Some (3, 2)));
    ("email.utils.format_datetime", RConst (None, Some (3, 3)));
    ("email.utils.formatdate", RConst (Some (2, 4), Some (3, 0)));
    ("email.utils.localtime", RConst (None, Some (3, 3)));
    ("email.utils.parsedate_to_datetime", RConst (None, Some (3, 3)));
    ("enum.show_flag_values", RConst (None, Some (3, 11)));
    ("filecmp.clear_cache", RConst (None, Some (3, 4)));
    ("fileinput.fileno", RConst (Some (2, 5), Some (3, 0)));
    ("fileinput.hook_compressed", RConst (Some (2, 5), Some (3, 0)));
    ("fileinput.hook_encoded", RConst (Some (2, 5), Some (3, 0)));
    ("fnmatch.filter", RConst (Some (2, 2), Some (3, 0)));
    ("fractions.Fraction.as_integer_ratio", RConst (None, Some (3, 8)));
    ("fractions.Fraction.is_integer", RConst (None, Some (3, 12)));
    ("ftplib.FTP.mlsd", RConst (None, Some (3, 3)));
    ("ftplib.FTP_TLS.ccc", RConst (None, Some (3, 3)));
    ("functools.cmp_to_key", RConst (Some (2, 7), Some (3, 2)));
    ("functools.reduce", RConst (Some (2, 6), Some (3, 0)));
    ("gc.freeze", RConst (None, Some (3, 7)));
    ("gc.get_count", RConst (Some (2, 5), Some (3, 0)));
    ("gc.get_freeze_count", RConst (None, Some (3, 7)));
    ("gc.get_objects", RConst (Some (2, 2), Some (3, 0)));
    ("gc.get_referents", RConst (Some (2, 3), Some (3, 0)));
    ("gc.get_referrers", RConst (Some (2, 2), Some (3, 0)));
    ("gc.get_stats", RConst (None, Some (3, 4)));
    ("gc.is_finalized", RConst (None, Some (3, 9)));
    ("gc.is_tracked", RConst (Some (2, 7), Some (3, 1)));
    ("gc.unfreeze", RConst (None, Some (3, 7)));
    ("getopt.gnu_getopt", RConst (Some (2, 3), Some (3, 0)));
    ("gettext.GNUTranslations.lgettext", RConst (Some (2, 4), Some (3, 0)));
    ("gettext.GNUTranslations.lngettext", RConst (Some (2, 4), Some (3, 0)));
    ("gettext.GNUTranslations.ngettext", RConst (Some (2, 3), Some (3, 0)));
    ("gettext.GNUTranslations.npgettext", RConst (None, Some (3, 8)));
    ("gettext.GNUTranslations.pgettext", RConst (None, Some (3, 8)));
    ("gettext.GNUTranslations.ungettext", RConst (Some (2, 3), None));
    ("gettext.NullTranslations.lgettext", RConst (Some (2, 4), Some (3, 0)));
    ("gettext.NullTranslations.lngettext", RConst (Some (2, 4), Some (3, 0)));
    ("gettext.NullTranslations.ngettext", RConst (Some (2, 3), Some (3, 0)));
    ("gettext.NullTranslations.npgettext", RConst (None, Some (3, 8)));
    ("gettext.NullTranslations.output_charset", RConst (Some (2, 4), Some (3, 0)));
    ("gettext.NullTranslations.pgettext", RConst (None, Some (3, 8)));
    ("gettext.NullTranslations.set_output_charset", RConst (Some (2, 4), Some (3, 0)));
    ("gettext.NullTranslations.ungettext", RConst (Some (2, 3), None));
    ("gettext.bind_textdomain_codeset", RConst (Some (2, 4), Some (3, 0)));
    ("gettext.dngettext", RConst (Some (2, 3), Some (3, 0)));
    ("gettext.dnpgettext", RConst (None, Some (3, 8)));
    ("gettext.dpgettext", RConst (None, Some (3, 8)));
    ("gettext.ldgettext", RConst (Some (2, 4), Some (3, 0)));
    ("gettext.ldngettext", RConst (Some (2, 4), Some (3, 0)));
    ("gettext.lgettext", RConst (Some (2, 4), Some (3, 0)));
    ("gettext.lngettext", RConst (Some (2, 4), Some (3, 0)));
    ("gettext.ngettext", RConst (Some (2, 3), Some (3, 0)));
    ("gettext.npgettext", RConst (None, Some (3, 8)));
    ("gettext.pgettext", RConst (None, Some (3, 8)));
    ("glob.escape", RConst (None, Some (3, 4)));
    ("glob.iglob", RConst (Some (2, 5), Some (3, 0)));
    ("gzip.GzipFile.peek", RConst (None, Some (3, 2)));
    ("gzip.compress", RConst (None, Some (3, 2)));
    ("gzip.decompress", RConst (None, Some (3, 2)));
    ("hashlib.blake2b", RConst (None, Some (3, 6)));
    ("hashlib.blake2s", RConst (None, Some (3, 6)));
    ("hashlib.file_digest", RConst (None, Some (3, 11)));
    ("hashlib.pbkdf2_hmac", RConst (Some (2, 7), Some (3, 4)));
    ("hashlib.scrypt", RConst (None, Some (3, 6)));
    ("hashlib.sha3_224", RConst (None, Some (3, 6)));
    ("hashlib.sha3_256", RConst (None, Some (3, 6)));
    ("hashlib.sha3_384", RConst (None, Some (3, 6)));
    ("hashlib.sha3_512", RConst (None, Some (3, 6)));
    ("hashlib.shake_128", RConst (None, Some (3, 6)));
    ("hashlib.shake_256", RConst (None, Some (3, 6)));
    ("heapq.heappushpop", RConst (Some (2, 6), Some (3, 0)));
    ("heapq.merge", RConst (Some (2, 6), Some (3, 0)));
    ("heapq.nlargest", RConst (Some (2, 4), Some (3, 0)));
    ("heapq.nsmallest", RConst (Some (2, 4), Some (3, 0)));
    ("hmac.compare_digest", RConst (Some (2, 7), Some (3, 3)));
    ("hmac.digest", RConst (None, Some (3, 7)));
    ("html.escape", RConst (None, Some (3, 2)));
    ("html.unescape", RConst (None, Some (3, 4)));
    ("http.client.HTTPConnection.set_debuglevel", RConst (None, Some (3, 1)));
    ("http.client.HTTPConnection.set_tunnel", RConst (None, Some (3, 2)));
    ("http.client.HTTPResponse.readinto", RConst (None, Some (3, 3)));
    ("http.server.BaseHTTPRequestHandler.flush_headers", RConst (None, Some (3, 3)));
    ("http.server.BaseHTTPRequestHandler.handle_expect_100", RConst (None, Some (3, 2)));
    ("http.server.BaseHTTPRequestHandler.send_response_only", RConst (None, Some (3, 2)));
    ("httplib.HTTPConnection.set_tunnel", RConst (Some (2, 7), None));
    ("httplib.HTTPResponse.getheaders", RConst (Some (2, 4), None));
    ("imaplib.IMAP4.deleteacl", RConst (Some (2, 4), Some (3, 0)));
    ("imaplib.IMAP4.enable", RConst (None, Some (3, 5)));
    ("imaplib.IMAP4.getannotation", RConst (Some (2, 5), Some (3, 0)));
    ("imaplib.IMAP4.getquota", RConst (Some (2, 3), Some (3, 0)));
    ("imaplib.IMAP4.getquotaroot", RConst (Some (2, 3), Some (3, 0)));
    ("imaplib.IMAP4.login_cram_md5", RConst (Some (2, 3), Some (3, 0)));
    ("imaplib.IMAP4.myrights", RConst (Some (2, 4), Some (3, 0)));
    ("imaplib.IMAP4.namespace", RConst (Some (2, 3), Some (3, 0)));
    ("imaplib.IMAP4.proxyauth", RConst (Some (2, 3), Some (3, 0)));
    ("imaplib.IMAP4.setannotation", RConst (Some (2, 5), Some (3, 0)));
    ("imaplib.IMAP4.setquota", RConst (Some (2, 3), Some (3, 0)));
    ("imaplib.IMAP4.starttls", RConst (None, Some (3, 2)));
    ("imaplib.IMAP4.thread", RConst (Some (2, 4), Some (3, 0)));
    ("imaplib.IMAP4.unselect", RConst (None, Some (3, 9)));
    ("imp.acquire_lock", RConst (Some (2, 3), Some (3, 0)));
    ("imp.cache_from_source", RConst (None, Some (3, 2)));
    ("imp.get_tag", RConst (None, Some (3, 2)));
    ("imp.release_lock", RConst (Some (2, 3), Some (3, 0)));
    ("imp.source_from_cache", RConst (None, Some (3, 2)));
    ("importlib.abc.InspectLoader.exec_module", RConst (None, Some (3, 4)));
    ("importlib.abc.InspectLoader.source_to_code", RConst (None, Some (3, 4)));
    ("importlib.abc.Loader.create_module", RConst (None, Some (3, 4)));
    ("importlib.abc.Loader.exec_module", RConst (None, Some (3, 4)));
    ("importlib.abc.Loader.module_repr", RConst (None, Some (3, 3)));
    ("importlib.abc.MetaPathFinder.find_spec", RConst (None, Some (3, 4)));
    ("importlib.abc.PathEntryFinder.find_spec", RConst (None, Some (3, 4)));
    ("importlib.abc.SourceLoader.exec_module", RConst (None, Some (3, 4)));
    ("importlib.abc.SourceLoader.path_stats", RConst (None, Some (3, 3)));
    ("importlib.find_loader", RConst (None, Some (3, 3)));
    ("importlib.invalidate_caches", RConst (None, Some (3, 3)));
    ("importlib.machinery.BuiltinImporter.create_module", RConst (None, Some (3, 5)));
    ("importlib.machinery.BuiltinImporter.exec_module", RConst (None, Some (3, 5)));
    ("importlib.machinery.ExtensionFileLoader.create_module", RConst (None, Some (3, 5)));
    ("importlib.machinery.ExtensionFileLoader.exec_module", RConst (None, Some (3, 5)));
    ("importlib.machinery.ExtensionFileLoader.get_filename", RConst (None, Some (3, 4)));
    ("importlib.machinery.FileFinder.find_spec", RConst (None, Some (3, 4)));
    ("importlib.machinery.FrozenImporter.create_module", RConst (None, Some (3, 4)));
    ("importlib.machinery.FrozenImporter.exec_module", RConst (None, Some (3, 4)));
    ("importlib.machinery.PathFinder.find_spec", RConst (None, Some (3, 4))) ].
Definition mod_mem_reqs_x_4 : list (string * reqx) :=
  [ ("importlib.machinery.all_suffixes", RConst (None, Some (3, 3)));
    ("importlib.metadata.packages_distributions", RConst (None, Some (3, 10)));
    ("importlib.reload", RConst (None, Some (3, 4)));
    ("importlib.resources.as_file", RConst (None, Some (3, 9)));
    ("importlib.resources.files", RConst (None, Some (3, 9)));
    ("importlib.util.cache_from_source", RConst (None, Some (3, 4)));
    ("importlib.util.decode_source", RConst (None, Some (3, 4)));
    ("importlib.util.find_spec", RConst (None, Some (3, 4)));
    ("importlib.util.module_from_spec", RConst (None, Some (3, 5)));
    ("importlib.util.resolve_name", RConst (None, Some (3, 3)));
    ("importlib.util.source_from_cache", RConst (None, Some (3, 4)));
    ("importlib.util.source_hash", RConst (None, Some (3, 7)));
    ("importlib.util.spec_from_file_location", RConst (None, Some (3, 4)));
    ("importlib.util.spec_from_loader", RConst (None, Some (3, 4)));
    ("inspect.BoundArguments.apply_defaults", RConst (None, Some (3, 5)));
    ("inspect.Signature.from_callable", RConst (None, Some (3, 5)));
    ("inspect.cleandoc", RConst (Some (2, 6), Some (3, 0)));
    ("inspect.get_annotations", RConst (None, Some (3, 10)));
    ("inspect.getasyncgenlocals", RConst (None, Some (3, 12)));
    ("inspect.getasyncgenstate", RConst (None, Some (3, 12)));
    ("inspect.getattr_static", RConst (None, Some (3, 2)));
    ("inspect.getcallargs", RConst (Some (2, 7), Some (3, 2)));
    ("inspect.getclosurevars", RConst (None, Some (3, 3)));
    ("inspect.getcoroutinelocals", RConst (None, Some (3, 5)));
    ("inspect.getcoroutinestate", RConst (None, Some (3, 5)));
    ("inspect.getgeneratorlocals", RConst (None, Some (3, 3)));
    ("inspect.getgeneratorstate", RConst (None, Some (3, 2)));
    ("inspect.getmembers_static", RConst (None, Some (3, 11)));
    ("inspect.isabstract", RConst (Some (2, 6), Some (3, 0)));
    ("inspect.isasyncgen", RConst (None, Some (3, 6)));
    ("inspect.isasyncgenfunction", RConst (None, Some (3, 6)));
    ("inspect.isawaitable", RConst (None, Some (3, 5)));
    ("inspect.iscoroutine", RConst (None, Some (3, 5)));
    ("inspect.iscoroutinefunction", RConst (None, Some (3, 5)));
    ("inspect.isdatadescriptor", RConst (Some (2, 3), Some (3, 0)));
    ("inspect.isgenerator", RConst (Some (2, 6), Some (3, 0)));
    ("inspect.isgeneratorfunction", RConst (Some (2, 6), Some (3, 0)));
    ("inspect.isgetsetdescriptor", RConst (Some (2, 5), Some (3, 0)));
    ("inspect.ismemberdescriptor", RConst (Some (2, 5), Some (3, 0)));
    ("inspect.ismethodwrapper", RConst (None, Some (3, 11)));
    ("inspect.markcoroutinefunction", RConst (None, Some (3, 12)));
    ("inspect.signature", RConst (None, Some (3, 3)));
    ("inspect.unwrap", RConst (None, Some (3, 4)));
    ("io.BufferedIOBase.detach", RConst (Some (2, 7), Some (3, 1)));
    ("io.BufferedIOBase.readinto1", RConst (None, Some (3, 5)));
    ("io.BytesIO.getbuffer", RConst (None, Some (3, 2)));
    ("io.BytesIO.readinto1", RConst (None, Some (3, 5)));
    ("io.TextIOBase.detach", RConst (Some (2, 7), Some (3, 1)));
    ("io.TextIOWrapper.reconfigure", RConst (None, Some (3, 7)));
    ("io.open_code", RConst (None, Some (3, 8)));
    ("io.text_encoding", RConst (None, Some (3, 10)));
    ("ipaddress.IPv4Address.__format__", RConst (None, Some (3, 9)));
    ("ipaddress.IPv4Network.subnet_of", RBpv "ipaddress" (None, Some (3, 7)));
    ("ipaddress.IPv4Network.supernet_of", RBpv "ipaddress" (None, Some (3, 7)));
    ("ipaddress.IPv6Address.__format__", RConst (None, Some (3, 9)));
    ("itertools.accumulate", RConst (None, Some (3, 2)));
    ("itertools.batched", RConst (None, Some (3, 12)));
    ("itertools.chain.from_iterable", RConst (Some (2, 6), Some (3, 0)));
    ("itertools.combinations", RConst (Some (2, 6), Some (3, 0)));
    ("itertools.combinations_with_replacement", RConst (Some (2, 7), Some (3, 1)));
    ("itertools.compress", RConst (Some (2, 7), Some (3, 1)));
    ("itertools.groupby", RConst (Some (2, 4), Some (3, 0)));
    ("itertools.izip_longest", RConst (Some (2, 6), None));
    ("itertools.pairwise", RConst (None, Some (3, 10)));
    ("itertools.permutations", RConst (Some (2, 6), Some (3, 0)));
    ("itertools.product", RConst (Some (2, 6), Some (3, 0)));
    ("itertools.tee", RConst (Some (2, 4), Some (3, 0)));
    ("keyword.issoftkeyword", RConst (None, Some (3, 9)));
    ("linecache.lazycache", RConst (None, Some (3, 5)));
    ("locale.currency", RConst (Some (2, 5), Some (3, 0)));
    ("locale.delocalize", RConst (None, Some (3, 5)));
    ("locale.format_string", RConst (Some (2, 5), Some (3, 0)));
    ("locale.getdefaultlocale", RConst (Some (2, 0), Some (3, 0)));
    ("locale.getencoding", RConst (None, Some (3, 11)));
    ("locale.getlocale", RConst (Some (2, 0), Some (3, 0)));
    ("locale.getpreferredencoding", RConst (Some (2, 3), Some (3, 0)));
    ("locale.localize", RConst (None, Some (3, 10)));
    ("locale.normalize", RConst (Some (2, 0), Some (3, 0)));
    ("locale.resetlocale", RConst (Some (2, 0), Some (3, 0)));
    ("logging.Logger.getChild", RConst (Some (2, 7), Some (3, 2)));
    ("logging.Logger.hasHandlers", RConst (None, Some (3, 2)));
    ("logging.LoggerAdapter._log", RConst (None, Some (3, 6)));
    ("logging.LoggerAdapter.getEffectiveLevel", RConst (None, Some (3, 2)));
    ("logging.LoggerAdapter.hasHandlers", RConst (None, Some (3, 2)));
    ("logging.LoggerAdapter.isEnabledFor", RConst (Some (2, 7), Some (3, 2)));
    ("logging.LoggerAdapter.setLevel", RConst (None, Some (3, 2)));
    ("logging.StreamHandler.setStream", RConst (None, Some (3, 7)));
    ("logging.config.dictConfig", RConst (Some (2, 7), Some (3, 2)));
    ("logging.getLevelNamesMapping", RConst (None, Some (3, 11)));
    ("logging.getLogRecordFactory", RConst (None, Some (3, 2)));
    ("logging.handlers.BaseRotatingHandler.rotate", RConst (None, Some (3, 3)));
    ("logging.handlers.BaseRotatingHandler.rotation_filename", RConst (None, Some (3, 3)));
    ("logging.handlers.QueueListener.enqueue_sentinel", RConst (None, Some (3, 3)));
    ("logging.handlers.WatchedFileHandler.reopenIfNeeded", RConst (None, Some (3, 6)));
    ("logging.setLogRecordFactory", RConst (None, Some (3, 2)));
    ("mailbox.Mailbox.get_bytes", RConst (None, Some (3, 2)));
    ("math.acosh", RConst (Some (2, 6), Some (3, 0)));
    ("math.asinh", RConst (Some (2, 6), Some (3, 0)));
    ("math.atanh", RConst (Some (2, 6), Some (3, 0)));
    ("math.cbrt", RConst (None, Some (3, 11)));
    ("math.comb", RConst (None, Some (3, 8)));
    ("math.copysign", RConst (Some (2, 6), Some (3, 0)));
    ("math.dist", RConst (None, Some (3, 8)));
    ("math.erf", RConst (Some (2, 7), Some (3, 2)));
    ("math.erfc", RConst (Some (2, 7), Some (3, 2)));
    ("math.exp2", RConst (None, Some (3, 11)));
    ("math.expm1", RConst (Some (2, 7), Some (3, 2)));
    ("math.factorial", RConst (Some (2, 6), Some (3, 0)));
    ("math.fsum", RConst (Some (2, 6), Some (3, 0)));
    ("math.gamma", RConst (Some (2, 7), Some (3, 2)));
    ("math.gcd", RConst (None, Some (3, 5)));
    ("math.isclose", RConst (None, Some (3, 5)));
    ("math.isfinite", RConst (None, Some (3, 2)));
    ("math.isinf", RConst (Some (2, 6), Some (3, 0)));
    ("math.isnan", RConst (Some (2, 6), Some (3, 0)));
    ("math.isqrt", RConst (None, Some (3, 8)));
    ("math.lcm", RConst (None, Some (3, 9)));
    ("math.lgamma", RConst (Some (2, 7), Some (3, 2)));
    ("math.log1p", RConst (Some (2, 6), Some (3, 0)));
    ("math.log2", RConst (None, Some (3, 3)));
    ("math.nextafter", RConst (None, Some (3, 9)));
    ("math.perm", RConst (None, Some (3, 8)));
    ("math.prod", RConst (None, Some (3, 8)));
    ("math.remainder", RConst (None, Some (3, 7)));
    ("math.sumprod", RConst (None, Some (3, 12)));
    ("math.trunc", RConst (Some (2, 6), Some (3, 0)));
    ("math.ulp", RConst (None, Some (3, 9)));
    ("mimetypes.MimeTypes.read_windows_registry", RConst (Some (2, 7), Some (3, 2)));
    ("mmap.mmap.madvise", RConst (None, Some (3, 8)));
    ("msilib.Database.Close", RConst (None, Some (3, 7)));
    ("msvcrt.getwch", RConst (Some (2, 6), Some (3, 0)));
    ("msvcrt.getwche", RConst (Some (2, 6), Some (3, 0)));
    ("msvcrt.putwch", RConst (Some (2, 6), Some (3, 0)));
    ("msvcrt.ungetwch", RConst (Some (2, 6), Some (3, 0)));
    ("multiprocessing.Condition.wait_for", RConst (None, Some (3, 3)));
    ("multiprocessing.Pool.starmap", RConst (None, Some (3, 3)));
    ("multiprocessing.Pool.starmap_async", RConst (None, Some (3, 3)));
    ("multiprocessing.pool.Pool.starmap", RConst (None, Some (3, 3)));
    ("multiprocessing.pool.Pool.starmap_async", RConst (None, Some (3, 3)));
    ("multiprocessing.Process.close", RConst (None, Some (3, 7)));
    ("multiprocessing.Process.kill", RConst (None, Some (3, 7)));
    ("multiprocessing.SimpleQueue.close", RConst (None, Some (3, 9)));
    ("multiprocessing.connection.wait", RConst (None, Some (3, 3)));
    ("multiprocessing.get_all_start_methods", RConst (None, Some (3, 4)));
    ("multiprocessing.get_context", RConst (None, Some (3, 4)));
    ("multiprocessing.get_start_method", RConst (None, Some (3, 4)));
    ("multiprocessing.managers.SyncManager.Barrier", RConst (None, Some (3, 3)));
    ("multiprocessing.managers.SyncManager.Condition.wait_for", RConst (None, Some (3, 3)));
    ("multiprocessing.parent_process", RConst (None, Some (3, 8)));
    ("multiprocessing.set_start_method", RConst (None, Some (3, 4)));
    ("nis.get_default_domain", RConst (Some (2, 5), Some (3, 0)));
    ("nntplib.NNTP.description", RConst (Some (2, 4), Some (3, 0)));
    ("nntplib.NNTP.descriptions", RConst (Some (2, 4), Some (3, 0)));
    ("nntplib.NNTP.getcapabilities", RConst (None, Some (3, 2)));
    ("nntplib.NNTP.login", RConst (None, Some (3, 2)));
    ("nntplib.NNTP.over", RConst (None, Some (3, 2)));
    ("nntplib.NNTP.starttls", RConst (None, Some (3, 2)));
    ("operator.__call__", RConst (None, Some (3, 11)));
    ("operator.__eq__", RConst (Some (2, 2), Some (3, 0)));
    ("operator.__floordiv__", RConst (Some (2, 2), Some (3, 0)));
    ("operator.__ge__", RConst (Some (2, 2), Some (3, 0)));
    ("operator.__gt__", RConst (Some (2, 2), Some (3, 0)));
    ("operator.__iadd__", RConst (Some (2, 5), Some (3, 0)));
    ("operator.__iand__", RConst (Some (2, 5), Some (3, 0)));
    ("operator.__iconcat__", RConst (Some (2, 5), Some (3, 0)));
    ("operator.__idiv__", RConst (Some (2, 5), None));
    ("operator.__ifloordiv__", RConst (Some (2, 5), Some (3, 0)));
    ("operator.__ilshift__", RConst (Some (2, 5), Some (3, 0)));
    ("operator.__imatmul__", RConst (None, Some (3, 5)));
    ("operator.__imod__", RConst (Some (2, 5), Some (3, 0)));
    ("operator.__imul__", RConst (Some (2, 5), Some (3, 0)));
    ("operator.__index__", RConst (Some (2, 5), Some (3, 0)));
    ("operator.__ior__", RConst (Some (2, 5), Some (3, 0)));
    ("operator.__ipow__", RConst (Some (2, 5), Some (3, 0)));
    ("operator.__irepeat__", RConst (Some (2, 5), None));
    ("operator.__irshift__", RConst (Some (2, 5), Some (3, 0)));
    ("operator.__isub__", RConst (Some (2, 5), Some (3, 0)));
    ("operator.__itruediv__", RConst (Some (2, 5), Some (3, 0)));
    ("operator.__ixor__", RConst (Some (2, 5), Some (3, 0)));
    ("operator.__le__", RConst (Some (2, 2), Some (3, 0)));
    ("operator.__lt__", RConst (Some (2, 2), Some (3, 0)));
    ("operator.__matmul__", RConst (None, Some (3, 5)));
    ("operator.__ne__", RConst (Some (2, 2), Some (3, 0)));
    ("operator.__pow__", RConst (Some (2, 3), Some (3, 0)));
    ("operator.__repeat__", RConst (Some (2, 0), None));
    ("operator.__truediv__", RConst (Some (2, 2), Some (3, 0)));
    ("operator.attrgetter", RConst (Some (2, 4), Some (3, 0)));
    ("operator.call", RConst (None, Some (3, 11)));
    ("operator.eq", RConst (Some (2, 2), Some (3, 0)));
    ("operator.floordiv", RConst (Some (2, 2), Some (3, 0)));
    ("operator.ge", RConst (Some (2, 2), Some (3, 0)));
    ("operator.gt", RConst (Some (2, 2), Some (3, 0)));
    ("operator.iadd", RConst (Some (2, 5), Some (3, 0)));
    ("operator.iand", RConst (Some (2, 5), Some (3, 0)));
    ("operator.iconcat", RConst (Some (2, 5), Some (3, 0)));
    ("operator.idiv", RConst (Some (2, 5), None));
    ("operator.ifloordiv", RConst (Some (2, 5), Some (3, 0)));
    ("operator.ilshift", RConst (Some (2, 5), Some (3, 0)));
    ("operator.imatmul", RConst (None, Some (3, 5)));
    ("operator.imod", RConst (Some (2, 5), Some (3, 0))) ].
Definition mod_mem_reqs_x_5 : list (string * reqx) :=
  [ ("operator.imul", RConst (Some (2, 5), Some (3, 0)));
    ("operator.index", RConst (Some (2, 5), Some (3, 0)));
    ("operator.ior", RConst (Some (2, 5), Some (3, 0)));
    ("operator.ipow", RConst (Some (2, 5), Some (3, 0)));
    ("operator.irepeat", RConst (Some (2, 5), None));
    ("operator.irshift", RConst (Some (2, 5), Some (3, 0)));
    ("operator.is_", RConst (Some (2, 3), Some (3, 0)));
    ("operator.is_not", RConst (Some (2, 3), Some (3, 0)));
    ("operator.isub", RConst (Some (2, 5), Some (3, 0)));
    ("operator.itemgetter", RConst (Some (2, 4), Some (3, 0)));
    ("operator.itruediv", RConst (Some (2, 5), Some (3, 0)));
    ("operator.ixor", RConst (Some (2, 5), Some (3, 0)));
    ("operator.le", RConst (Some (2, 2), Some (3, 0)));
    ("operator.length_hint", RConst (None, Some (3, 4)));
    ("operator.lt", RConst (Some (2, 2), Some (3, 0)));
    ("operator.matmul", RConst (None, Some (3, 5)));
    ("operator.methodcaller", RConst (Some (2, 6), Some (3, 0)));
    ("operator.ne", RConst (Some (2, 2), Some (3, 0)));
    ("operator.pow", RConst (Some (2, 3), Some (3, 0)));
    ("operator.repeat", RConst (Some (2, 0), None));
    ("operator.truediv", RConst (Some (2, 2), Some (3, 0)));
    ("os.DirEntry.is_junction", RConst (None, Some (3, 12)));
    ("os.WCOREDUMP", RConst (Some (2, 3), Some (3, 0)));
    ("os.WIFCONTINUED", RConst (Some (2, 3), Some (3, 0)));
    ("os.add_dll_directory", RConst (None, Some (3, 8)));
    ("os.chflags", RConst (Some (2, 6), Some (3, 0)));
    ("os.chroot", RConst (Some (2, 2), Some (3, 0)));
    ("os.closerange", RConst (Some (2, 6), Some (3, 0)));
    ("os.copy_file_range", RConst (None, Some (3, 8)));
    ("os.cpu_count", RConst (None, Some (3, 4)));
    ("os.eventfd", RConst (None, Some (3, 10)));
    ("os.eventfd_read", RConst (None, Some (3, 10)));
    ("os.eventfd_write", RConst (None, Some (3, 10)));
    ("os.fchdir", RConst (Some (2, 3), Some (3, 0)));
    ("os.fchmod", RConst (Some (2, 6), Some (3, 0)));
    ("os.fchown", RConst (Some (2, 6), Some (3, 0)));
    ("os.fsdecode", RConst (None, Some (3, 2)));
    ("os.fsencode", RConst (None, Some (3, 2)));
    ("os.fspath", RConst (None, Some (3, 6)));
    ("os.fwalk", RConst (None, Some (3, 3)));
    ("os.get_blocking", RConst (None, Some (3, 5)));
    ("os.get_exec_path", RConst (None, Some (3, 2)));
    ("os.get_handle_inheritable", RConst (None, Some (3, 4)));
    ("os.get_inheritable", RConst (None, Some (3, 4)));
    ("os.get_terminal_size", RConst (None, Some (3, 3)));
    ("os.getcwdu", RConst (Some (2, 3), None));
    ("os.getenvb", RConst (None, Some (3, 2)));
    ("os.getgrouplist", RConst (None, Some (3, 3)));
    ("os.getloadavg", RConst (Some (2, 3), Some (3, 0)));
    ("os.getpgid", RConst (Some (2, 3), Some (3, 0)));
    ("os.getpriority", RConst (None, Some (3, 3)));
    ("os.getrandom", RConst (None, Some (3, 6)));
    ("os.getresgid", RConst (Some (2, 7), Some (3, 2)));
    ("os.getresuid", RConst (Some (2, 7), Some (3, 2)));
    ("os.getsid", RConst (Some (2, 4), Some (3, 0)));
    ("os.getxattr", RConst (None, Some (3, 3)));
    ("os.initgroups", RConst (Some (2, 7), Some (3, 2)));
    ("os.lchflags", RConst (Some (2, 6), Some (3, 0)));
    ("os.lchmod", RConst (Some (2, 6), Some (3, 0)));
    ("os.lchown", RConst (Some (2, 3), Some (3, 0)));
    ("os.listdrives", RConst (None, Some (3, 12)));
    ("os.listmounts", RConst (None, Some (3, 12)));
    ("os.listvolumes", RConst (None, Some (3, 12)));
    ("os.listxattr", RConst (None, Some (3, 3)));
    ("os.lockf", RConst (None, Some (3, 3)));
    ("os.login_tty", RConst (None, Some (3, 11)));
    ("os.major", RConst (Some (2, 3), Some (3, 0)));
    ("os.makedev", RConst (Some (2, 3), Some (3, 0)));
    ("os.memfd_create", RConst (None, Some (3, 8)));
    ("os.minor", RConst (Some (2, 3), Some (3, 0)));
    ("os.mknod", RConst (Some (2, 3), Some (3, 0)));
    ("os.path.commonpath", RConst (None, Some (3, 5)));
    ("os.path.getctime", RConst (Some (2, 3), Some (3, 0)));
    ("os.path.isdevdrive", RConst (None, Some (3, 12)));
    ("os.path.isjunction", RConst (None, Some (3, 12)));
    ("os.path.ismount", RConst (None, Some (3, 4)));
    ("os.path.lexists", RConst (Some (2, 4), Some (3, 0)));
    ("os.path.realpath", RConst (Some (2, 2), Some (3, 0)));
    ("os.path.relpath", RConst (Some (2, 6), Some (3, 0)));
    ("os.path.splitroot", RConst (None, Some (3, 12)));
    ("os.pidfd_open", RConst (None, Some (3, 9)));
    ("os.pipe2", RConst (None, Some (3, 3)));
    ("os.popen2", RConst (Some (2, 0), None));
    ("os.popen3", RConst (Some (2, 0), None));
    ("os.popen4", RConst (Some (2, 0), None));
    ("os.posix_fadvise", RConst (None, Some (3, 3)));
    ("os.posix_fallocate", RConst (None, Some (3, 3)));
    ("os.posix_spawn", RConst (None, Some (3, 8)));
    ("os.posix_spawnp", RConst (None, Some (3, 8)));
    ("os.pread", RConst (None, Some (3, 3)));
    ("os.preadv", RConst (None, Some (3, 7)));
    ("os.pwrite", RConst (None, Some (3, 3)));
    ("os.pwritev", RConst (None, Some (3, 7)));
    ("os.readv", RConst (None, Some (3, 3)));
    ("os.register_at_fork", RConst (None, Some (3, 7)));
    ("os.removexattr", RConst (None, Some (3, 3)));
    ("os.replace", RConst (None, Some (3, 3)));
    ("os.scandir", RConst (None, Some (3, 5)));
    ("os.scandir.close", RConst (None, Some (3, 6)));
    ("os.sched_get_priority_max", RConst (None, Some (3, 3)));
    ("os.sched_get_priority_min", RConst (None, Some (3, 3)));
    ("os.sched_getaffinity", RConst (None, Some (3, 3)));
    ("os.sched_getparam", RConst (None, Some (3, 3)));
    ("os.sched_getscheduler", RConst (None, Some (3, 3)));
    ("os.sched_rr_get_interval", RConst (None, Some (3, 3)));
    ("os.sched_setaffinity", RConst (None, Some (3, 3)));
    ("os.sched_setparam", RConst (None, Some (3, 3)));
    ("os.sched_setscheduler", RConst (None, Some (3, 3)));
    ("os.sched_yield", RConst (None, Some (3, 3)));
    ("os.sendfile", RConst (None, Some (3, 3)));
    ("os.set_blocking", RConst (None, Some (3, 5)));
    ("os.set_handle_inheritable", RConst (None, Some (3, 4)));
    ("os.set_inheritable", RConst (None, Some (3, 4)));
    ("os.setgroups", RConst (Some (2, 2), Some (3, 0)));
    ("os.setns", RConst (None, Some (3, 12)));
    ("os.setpriority", RConst (None, Some (3, 3)));
    ("os.setresgid", RConst (Some (2, 7), Some (3, 2)));
    ("os.setresuid", RConst (Some (2, 7), Some (3, 2)));
    ("os.setxattr", RConst (None, Some (3, 3)));
    ("os.splice", RConst (None, Some (3, 10)));
    ("os.startfile", RConst (Some (2, 0), Some (3, 0)));
    ("os.sync", RConst (None, Some (3, 3)));
    ("os.truncate", RConst (None, Some (3, 3)));
    ("os.unshare", RConst (None, Some (3, 12)));
    ("os.urandom", RConst (Some (2, 4), Some (3, 0)));
    ("os.wait3", RConst (Some (2, 5), Some (3, 0)));
    ("os.wait4", RConst (Some (2, 5), Some (3, 0)));
    ("os.waitid", RConst (None, Some (3, 3)));
    ("os.waitstatus_to_exitcode", RConst (None, Some (3, 9)));
    ("os.walk", RConst (Some (2, 3), Some (3, 0)));
    ("os.writev", RConst (None, Some (3, 3)));
    ("pathlib.Path.expanduser", RConst (None, Some (3, 5)));
    ("pathlib.Path.hardlink_to", RConst (None, Some (3, 10)));
    ("pathlib.Path.home", RConst (None, Some (3, 5)));
    ("pathlib.Path.is_junction", RConst (None, Some (3, 12)));
    ("pathlib.Path.is_mount", RConst (None, Some (3, 7)));
    ("pathlib.Path.link_to", RConst (None, Some (3, 8)));
    ("pathlib.Path.read_bytes", RConst (None, Some (3, 5)));
    ("pathlib.Path.read_text", RConst (None, Some (3, 5)));
    ("pathlib.Path.readlink", RConst (None, Some (3, 9)));
    ("pathlib.Path.samefile", RConst (None, Some (3, 5)));
    ("pathlib.Path.walk", RConst (None, Some (3, 12)));
    ("pathlib.Path.write_bytes", RConst (None, Some (3, 5)));
    ("pathlib.Path.write_text", RConst (None, Some (3, 5)));
    ("pathlib.PurePath.is_relative_to", RConst (None, Some (3, 9)));
    ("pathlib.PurePath.with_segments", RConst (None, Some (3, 12)));
    ("pathlib.PurePath.with_stem", RConst (None, Some (3, 9)));
    ("pickle.Pickler.reducer_override", RConst (None, Some (3, 8)));
    ("pickletools.optimize", RConst (Some (2, 6), Some (3, 0)));
    ("pkgutil.get_data", RConst (Some (2, 6), Some (3, 0)));
    ("pkgutil.resolve_name", RConst (None, Some (3, 9)));
    ("platform.freedesktop_os_release", RConst (None, Some (3, 10)));
    ("platform.linux_distribution", RConst (Some (2, 6), Some (3, 0)));
    ("platform.python_branch", RConst (Some (2, 6), Some (3, 0)));
    ("platform.python_implementation", RConst (Some (2, 6), Some (3, 0)));
    ("platform.python_revision", RConst (Some (2, 6), Some (3, 0)));
    ("platform.win32_edition", RConst (None, Some (3, 8)));
    ("platform.win32_is_iot", RConst (None, Some (3, 8)));
    ("plistlib.dump", RConst (None, Some (3, 4)));
    ("plistlib.dumps", RConst (None, Some (3, 4)));
    ("plistlib.load", RConst (None, Some (3, 4)));
    ("plistlib.loads", RConst (None, Some (3, 4)));
    ("poplib.POP3.capa", RConst (None, Some (3, 4)));
    ("poplib.POP3.stls", RConst (None, Some (3, 4)));
    ("poplib.POP3.utf8", RConst (None, Some (3, 5)));
    ("pprint.PrettyPrinter.format", RConst (Some (2, 3), Some (3, 0)));
    ("pprint.pp", RConst (None, Some (3, 8)));
    ("pstats.Stats.get_stats_profile", RConst (None, Some (3, 9)));
    ("random.binomialvariate", RConst (None, Some (3, 12)));
    ("random.choices", RConst (None, Some (3, 6)));
    ("random.getrandbits", RConst (Some (2, 4), Some (3, 0)));
    ("random.getstate", RConst (Some (2, 1), Some (3, 0)));
    ("random.jumpahead", RConst (Some (2, 1), None));
    ("random.randbytes", RConst (None, Some (3, 9)));
    ("random.sample", RConst (Some (2, 3), Some (3, 0)));
    ("random.setstate", RConst (Some (2, 1), Some (3, 0)));
    ("random.triangular", RConst (Some (2, 6), Some (3, 0)));
    ("re.Pattern.fullmatch", RConst (None, Some (3, 4)));
    ("re.finditer", RConst (Some (2, 2), Some (3, 0)));
    ("re.fullmatch", RConst (None, Some (3, 4)));
    ("readline.append_history_file", RConst (None, Some (3, 5)));
    ("readline.clear_history", RConst (Some (2, 4), Some (3, 0)));
    ("readline.get_completer", RConst (Some (2, 3), Some (3, 0)));
    ("readline.get_completion_type", RConst (Some (2, 6), Some (3, 0)));
    ("readline.get_current_history_length", RConst (Some (2, 3), Some (3, 0)));
    ("readline.get_history_item", RConst (Some (2, 3), Some (3, 0)));
    ("readline.remove_history_item", RConst (Some (2, 4), Some (3, 0)));
    ("readline.replace_history_item", RConst (Some (2, 4), Some (3, 0)));
    ("readline.set_auto_history", RConst (None, Some (3, 6)));
    ("readline.set_completion_display_matches_hook", RConst (Some (2, 6), Some (3, 0)));
    ("readline.set_pre_input_hook", RConst (Some (2, 3), Some (3, 0)));
    ("readline.set_startup_hook", RConst (Some (2, 3), Some (3, 0)));
    ("resource.prlimit", RConst (None, Some (3, 4)));
    ("runpy.run_path", RConst (Some (2, 7), Some (3, 2)));
    ("select.devpoll", RConst (None, Some (3, 3)));
    ("select.devpoll.close", RConst (None, Some (3, 4)));
    ("select.devpoll.fileno", RConst (None, Some (3, 4)));
    ("select.epoll", RConst (Some (2, 6), Some (3, 0)));
    ("select.kevent", RConst (Some (2, 6), Some (3, 0)));
    ("select.kqueue", RConst (Some (2, 6), Some (3, 0))) ].
Definition mod_mem_reqs_x_6 : list (string * reqx) :=
  [ ("select.poll.modify", RConst (Some (2, 6), Some (3, 0)));
    ("sgmllib.SGMLParser.convert_charref", RConst (Some (2, 5), None));
    ("sgmllib.SGMLParser.convert_codepoint", RConst (Some (2, 5), None));
    ("sgmllib.SGMLParser.convert_entityref", RConst (Some (2, 5), None));
    ("shlex.join", RConst (None, Some (3, 8)));
    ("shlex.quote", RConst (None, Some (3, 3)));
    ("shlex.shlex.pop_source", RConst (Some (2, 1), Some (3, 0)));
    ("shlex.shlex.push_source", RConst (Some (2, 1), Some (3, 0)));
    ("shlex.split", RConst (Some (2, 3), Some (3, 0)));
    ("shutil.chown", RConst (None, Some (3, 3)));
    ("shutil.disk_usage", RConst (None, Some (3, 3)));
    ("shutil.get_archive_formats", RConst (Some (2, 7), Some (3, 2)));
    ("shutil.get_terminal_size", RConst (None, Some (3, 3)));
    ("shutil.get_unpack_formats", RConst (None, Some (3, 2)));
    ("shutil.ignore_patterns", RConst (Some (2, 6), Some (3, 0)));
    ("shutil.make_archive", RConst (Some (2, 7), Some (3, 2)));
    ("shutil.move", RConst (Some (2, 3), Some (3, 0)));
    ("shutil.register_archive_format", RConst (Some (2, 7), Some (3, 2)));
    ("shutil.register_unpack_format", RConst (None, Some (3, 2)));
    ("shutil.unpack_archive", RConst (None, Some (3, 2)));
    ("shutil.unregister_archive_format", RConst (Some (2, 7), Some (3, 2)));
    ("shutil.unregister_unpack_format", RConst (None, Some (3, 2)));
    ("shutil.which", RConst (None, Some (3, 3)));
    ("signal.getitimer", RConst (Some (2, 6), Some (3, 0)));
    ("signal.pidfd_send_signal", RConst (None, Some (3, 9)));
    ("signal.pthread_kill", RConst (None, Some (3, 3)));
    ("signal.pthread_sigmask", RConst (None, Some (3, 3)));
    ("signal.raise_signal", RConst (None, Some (3, 8)));
    ("signal.set_wakeup_fd", RConst (Some (2, 6), Some (3, 0)));
    ("signal.setitimer", RConst (Some (2, 6), Some (3, 0)));
    ("signal.siginterrupt", RConst (Some (2, 6), Some (3, 0)));
    ("signal.sigpending", RConst (None, Some (3, 3)));
    ("signal.sigtimedwait", RConst (None, Some (3, 3)));
    ("signal.sigwait", RConst (None, Some (3, 3)));
    ("signal.sigwaitinfo", RConst (None, Some (3, 3)));
    ("signal.strsignal", RConst (None, Some (3, 8)));
    ("signal.valid_signals", RConst (None, Some (3, 8)));
    ("site.getsitepackages", RConst (Some (2, 7), Some (3, 2)));
    ("site.getuserbase", RConst (Some (2, 7), Some (3, 2)));
    ("site.getusersitepackages", RConst (Some (2, 7), Some (3, 2)));
    ("smtplib.SMTP.auth", RConst (None, Some (3, 5)));
    ("smtplib.SMTP.ehlo_or_helo_if_needed", RConst (Some (2, 6), Some (3, 0)));
    ("smtplib.SMTP.send_message", RConst (None, Some (3, 2)));
    ("smtplib.SMTP.starttls", RConst (Some (2, 6), Some (3, 0)));
    ("socket.CMSG_LEN", RConst (None, Some (3, 3)));
    ("socket.CMSG_SPACE", RConst (None, Some (3, 3)));
    ("socket.close", RConst (None, Some (3, 7)));
    ("socket.create_connection", RConst (Some (2, 6), Some (3, 0)));
    ("socket.create_server", RConst (None, Some (3, 8)));
    ("socket.fromshare", RConst (None, Some (3, 3)));
    ("socket.getaddrinfo", RConst (Some (2, 2), Some (3, 0)));
    ("socket.getdefaulttimeout", RConst (Some (2, 3), Some (3, 0)));
    ("socket.getnameinfo", RConst (Some (2, 2), Some (3, 0)));
    ("socket.has_dualstack_ipv6", RConst (None, Some (3, 8)));
    ("socket.if_indextoname", RConst (None, Some (3, 3)));
    ("socket.if_nameindex", RConst (None, Some (3, 3)));
    ("socket.if_nametoindex", RConst (None, Some (3, 3)));
    ("socket.inet_ntop", RConst (Some (2, 3), Some (3, 0)));
    ("socket.inet_pton", RConst (Some (2, 3), Some (3, 0)));
    ("socket.recv_fds", RConst (None, Some (3, 9)));
    ("socket.send_fds", RConst (None, Some (3, 9)));
    ("socket.setdefaulttimeout", RConst (Some (2, 3), Some (3, 0)));
    ("socket.sethostname", RConst (None, Some (3, 3)));
    ("socket.socket.detach", RConst (None, Some (3, 2)));
    ("socket.socket.get_inheritable", RConst (None, Some (3, 4)));
    ("socket.socket.getblocking", RConst (None, Some (3, 7)));
    ("socket.socket.gettimeout", RConst (Some (2, 3), Some (3, 0)));
    ("socket.socket.ioctl", RConst (Some (2, 6), Some (3, 0)));
    ("socket.socket.recv_into", RConst (Some (2, 5), Some (3, 0)));
    ("socket.socket.recvfrom_into", RConst (Some (2, 5), Some (3, 0)));
    ("socket.socket.recvmsg", RConst (None, Some (3, 3)));
    ("socket.socket.recvmsg_into", RConst (None, Some (3, 3)));
    ("socket.socket.sendfile", RConst (None, Some (3, 5)));
    ("socket.socket.sendmsg", RConst (None, Some (3, 3)));
    ("socket.socket.sendmsg_afalg", RConst (None, Some (3, 6)));
    ("socket.socket.set_inheritable", RConst (None, Some (3, 4)));
    ("socket.socket.settimeout", RConst (Some (2, 3), Some (3, 0)));
    ("socket.socket.share", RConst (None, Some (3, 3)));
    ("socket.socketpair", RConst (Some (2, 4), Some (3, 0)));
    ("socketserver.BaseServer.service_actions", RConst (None, Some (3, 3)));
    ("sysconfig._get_preferred_schemes", RConst (None, Some (3, 10)));
    ("sysconfig.get_default_scheme", RConst (None, Some (3, 10)));
    ("sysconfig.get_preferred_scheme", RConst (None, Some (3, 10)));
    ("sqlite3.Connection.backup", RConst (None, Some (3, 7)));
    ("sqlite3.Connection.blobopen", RConst (None, Some (3, 11)));
    ("sqlite3.Connection.create_window_function", RConst (None, Some (3, 11)));
    ("sqlite3.Connection.deserialize", RConst (None, Some (3, 11)));
    ("sqlite3.Connection.enable_load_extension", RConst (Some (2, 7), Some (3, 2)));
    ("sqlite3.Connection.getconfig", RConst (None, Some (3, 12)));
    ("sqlite3.Connection.getlimit", RConst (None, Some (3, 11)));
    ("sqlite3.Connection.in_transaction", RConst (None, Some (3, 2)));
    ("sqlite3.Connection.iter_dump", RConst (Some (2, 6), Some (3, 0)));
    ("sqlite3.Connection.iterdump", RConst (Some (2, 6), Some (3, 0)));
    ("sqlite3.Connection.load_extension", RConst (Some (2, 7), Some (3, 2)));
    ("sqlite3.Connection.serialize", RConst (None, Some (3, 11)));
    ("sqlite3.Connection.set_progress_handler", RConst (Some (2, 6), Some (3, 0)));
    ("sqlite3.Connection.set_trace_callback", RConst (None, Some (3, 3)));
    ("sqlite3.Connection.setconfig", RConst (None, Some (3, 12)));
    ("sqlite3.Connection.setlimit", RConst (None, Some (3, 11)));
    ("sqlite3.Row.keys", RConst (Some (2, 6), Some (3, 0)));
    ("ssl.RAND_bytes", RConst (None, Some (3, 3)));
    ("ssl.RAND_pseudo_bytes", RConst (None, Some (3, 3)));
    ("ssl.SSLContext.cert_store_stats", RConst (Some (2, 7), Some (3, 4)));
    ("ssl.SSLContext.get_ca_certs", RConst (Some (2, 7), Some (3, 4)));
    ("ssl.SSLContext.get_ciphers", RConst (None, Some (3, 6)));
    ("ssl.SSLContext.load_default_certs", RConst (Some (2, 7), Some (3, 4)));
    ("ssl.SSLContext.load_dh_params", RConst (Some (2, 7), Some (3, 3)));
    ("ssl.SSLContext.set_alpn_protocols", RConst (Some (2, 7), Some (3, 5)));
    ("ssl.SSLContext.set_ecdh_curve", RConst (Some (2, 7), Some (3, 3)));
    ("ssl.SSLContext.set_npn_protocols", RConst (Some (2, 7), Some (3, 3)));
    ("ssl.SSLContext.set_servername_callback", RConst (Some (2, 7), Some (3, 4)));
    ("ssl.SSLSocket.compression", RConst (Some (2, 7), Some (3, 3)));
    ("ssl.SSLSocket.get_channel_binding", RConst (Some (2, 7), Some (3, 3)));
    ("ssl.SSLSocket.selected_alpn_protocol", RConst (Some (2, 7), Some (3, 5)));
    ("ssl.SSLSocket.selected_npn_protocol", RConst (Some (2, 7), Some (3, 3)));
    ("ssl.SSLSocket.sendfile", RConst (None, Some (3, 5)));
    ("ssl.SSLSocket.shared_ciphers", RConst (None, Some (3, 5)));
    ("ssl.SSLSocket.verify_client_post_handshake", RConst (None, Some (3, 8)));
    ("ssl.SSLSocket.version", RConst (Some (2, 7), Some (3, 5)));
    ("ssl._https_verify_certificates", RConst (Some (2, 7), None));
    ("ssl.create_default_context", RConst (Some (2, 7), Some (3, 4)));
    ("ssl.enum_certificates", RConst (Some (2, 7), Some (3, 4)));
    ("ssl.enum_crls", RConst (Some (2, 7), Some (3, 4)));
    ("ssl.get_default_verify_paths", RConst (Some (2, 7), Some (3, 4)));
    ("ssl.match_hostname", RConst (Some (2, 7), Some (3, 2)));
    ("stat.S_ISDOOR", RConst (None, Some (3, 4)));
    ("stat.S_ISPORT", RConst (None, Some (3, 4)));
    ("stat.S_ISWHT", RConst (None, Some (3, 4)));
    ("stat.filemode", RConst (None, Some (3, 3)));
    ("statistics.NormalDist.zscore", RConst (None, Some (3, 9)));
    ("statistics.correlation", RConst (None, Some (3, 10)));
    ("statistics.covariance", RConst (None, Some (3, 10)));
    ("statistics.fmean", RConst (None, Some (3, 8)));
    ("statistics.geometric_mean", RConst (None, Some (3, 8)));
    ("statistics.harmonic_mean", RConst (None, Some (3, 6)));
    ("statistics.linear_regression", RConst (None, Some (3, 10)));
    ("statistics.multimode", RConst (None, Some (3, 8)));
    ("statistics.quantiles", RConst (None, Some (3, 8)));
    ("string.Template.get_identifiers", RConst (None, Some (3, 11)));
    ("string.Template.is_valid", RConst (None, Some (3, 11)));
    ("string.rsplit", RConst (Some (2, 4), None));
    ("struct.Struct.iter_unpack", RConst (None, Some (3, 4)));
    ("struct.iter_unpack", RConst (None, Some (3, 4)));
    ("struct.pack_into", RConst (Some (2, 5), Some (3, 0)));
    ("struct.unpack_from", RConst (Some (2, 5), Some (3, 0)));
    ("subprocess.Popen.kill", RConst (Some (2, 6), Some (3, 0)));
    ("subprocess.Popen.send_signal", RConst (Some (2, 6), Some (3, 0)));
    ("subprocess.Popen.terminate", RConst (Some (2, 6), Some (3, 0)));
    ("subprocess.check_call", RConst (Some (2, 5), Some (3, 0)));
    ("subprocess.check_output", RConst (Some (2, 7), Some (3, 1)));
    ("subprocess.run", RConst (None, Some (3, 5)));
    ("symtable.Symbol.is_annotated", RConst (None, Some (3, 6)));
    ("sys._clear_type_cache", RConst (Some (2, 6), Some (3, 0)));
    ("sys._current_frames", RConst (Some (2, 5), Some (3, 0)));
    ("sys._debugmallocstats", RConst (None, Some (3, 3)));
    ("sys._enablelegacywindowsfsencoding", RConst (None, Some (3, 6)));
    ("sys.addaudithook", RConst (None, Some (3, 8)));
    ("sys.audit", RConst (None, Some (3, 8)));
    ("sys.breakpointhook", RConst (None, Some (3, 7)));
    ("sys.exc_clear", RConst (Some (2, 3), None));
    ("sys.exception", RConst (None, Some (3, 11)));
    ("sys.get_asyncgen_hooks", RConst (None, Some (3, 6)));
    ("sys.get_coroutine_origin_tracking_depth", RConst (None, Some (3, 7)));
    ("sys.get_int_max_str_digits", RConst (None, Some (3, 11)));
    ("sys.set_int_max_str_digits", RConst (None, Some (3, 11)));
    ("sys.getallocatedblocks", RConst (None, Some (3, 4)));
    ("sys.getandroidapilevel", RConst (None, Some (3, 7)));
    ("sys.getcheckinterval", RConst (Some (2, 3), Some (3, 0)));
    ("sys.getdlopenflags", RConst (Some (2, 2), Some (3, 0)));
    ("sys.getfilesystemencodeerrors", RConst (None, Some (3, 6)));
    ("sys.getfilesystemencoding", RConst (Some (2, 3), Some (3, 0)));
    ("sys.getprofile", RConst (Some (2, 6), Some (3, 0)));
    ("sys.getsizeof", RConst (Some (2, 6), Some (3, 0)));
    ("sys.getswitchinterval", RConst (None, Some (3, 2)));
    ("sys.gettrace", RConst (Some (2, 6), Some (3, 0)));
    ("sys.getwindowsversion", RConst (Some (2, 3), Some (3, 0)));
    ("sys.is_finalizing", RConst (None, Some (3, 5)));
    ("sys.set_asyncgen_hooks", RConst (None, Some (3, 6)));
    ("sys.set_coroutine_origin_tracking_depth", RConst (None, Some (3, 7)));
    ("sys.setdefaultencoding", RConst (Some (2, 0), None));
    ("sys.setdlopenflags", RConst (Some (2, 2), Some (3, 0)));
    ("sys.setswitchinterval", RConst (None, Some (3, 2)));
    ("sys.settscdump", RConst (Some (2, 4), None));
    ("sys.unraisablehook", RConst (None, Some (3, 8)));
    ("tarfile.TarFile.extractall", RConst (Some (2, 5), Some (3, 0)));
    ("tarfile.TarInfo.fromtarfile", RConst (Some (2, 6), Some (3, 0)));
    ("tarfile.TarInfo.replace", RConst (None, Some (3, 12)));
    ("telnetlib.Telnet.read_sb_data", RConst (Some (2, 3), Some (3, 0)));
    ("tempfile.NamedTemporaryFile", RConst (Some (2, 3), Some (3, 0)));
    ("tempfile.SpooledTemporaryFile", RConst (Some (2, 6), Some (3, 0)));
    ("tempfile.TemporaryDirectory", RConst (None, Some (3, 2)));
    ("tempfile.gettempdir", RConst (Some (2, 3), Some (3, 0)));
    ("tempfile.gettempdirb", RConst (None, Some (3, 5)));
    ("tempfile.gettempprefixb", RConst (None, Some (3, 5)));
    ("tempfile.mkdtemp", RConst (Some (2, 3), Some (3, 0)));
    ("tempfile.mkstemp", RConst (Some (2, 3), Some (3, 0)));
    ("termios.tcgetwinsize", RConst (None, Some (3, 11)));
    ("termios.tcsetwinsize", RConst (None, Some (3, 11)));
    ("test.support.adjust_int_max_str_digits", RConst (None, Some (3, 11)));
    ("test.support.captured_stdout", RConst (Some (2, 6), Some (3, 0))) ].
Definition mod_mem_reqs_x_7 : list (string * reqx) :=
  [ ("test.support.catch_threading_exception", RConst (None, Some (3, 8)));
    ("test.support.catch_unraisable_exception", RConst (None, Some (3, 8)));
    ("test.support.check__all__", RConst (None, Some (3, 6)));
    ("test.support.check_disallow_instantiation", RConst (None, Some (3, 10)));
    ("test.support.check_py3k_warnings", RConst (Some (2, 7), None));
    ("test.support.check_syntax_warning", RConst (None, Some (3, 8)));
    ("test.support.check_warnings", RConst (Some (2, 6), Some (3, 0)));
    ("test.support.detect_api_mismatch", RConst (None, Some (3, 5)));
    ("test.support.flush_std_streams", RConst (None, Some (3, 11)));
    ("test.support.import_fresh_module", RConst (Some (2, 7), Some (3, 1)));
    ("test.support.import_module", RConst (Some (2, 7), Some (3, 1)));
    ("test.support.print_warning", RConst (None, Some (3, 9)));
    ("test.support.skip_if_broken_multiprocessing_synchronize", RConst (None, Some (3, 10)));
    ("test.support.wait_process", RConst (None, Some (3, 9)));
    ("textwrap.indent", RConst (None, Some (3, 3)));
    ("textwrap.shorten", RConst (None, Some (3, 4)));
    ("thread.interrupt_main", RConst (Some (2, 3), None));
    ("thread.stack_size", RConst (Some (2, 5), None));
    ("threading.Condition.notify_all", RConst (Some (2, 6), Some (3, 0)));
    ("threading.Condition.wait_for", RConst (None, Some (3, 2)));
    ("threading.Event.is_set", RConst (Some (2, 6), Some (3, 0)));
    ("threading.Thread.is_alive", RConst (Some (2, 6), Some (3, 0)));
    ("threading.active_count", RConst (Some (2, 6), Some (3, 0)));
    ("threading.current_thread", RConst (Some (2, 6), Some (3, 0)));
    ("threading.excepthook", RConst (None, Some (3, 8)));
    ("threading.get_ident", RConst (None, Some (3, 3)));
    ("threading.get_native_id", RConst (None, Some (3, 8)));
    ("threading.getprofile", RConst (None, Some (3, 10)));
    ("threading.gettrace", RConst (None, Some (3, 10)));
    ("threading.main_thread", RConst (None, Some (3, 4)));
    ("threading.setprofile", RConst (Some (2, 3), Some (3, 0)));
    ("threading.setprofile_all_threads", RConst (None, Some (3, 12)));
    ("threading.settrace", RConst (Some (2, 3), Some (3, 0)));
    ("threading.settrace_all_threads", RConst (None, Some (3, 12)));
    ("threading.stack_size", RConst (Some (2, 5), Some (3, 0)));
    ("time.clock_getres", RConst (None, Some (3, 3)));
    ("time.clock_gettime", RConst (None, Some (3, 3)));
    ("time.clock_gettime_ns", RConst (None, Some (3, 7)));
    ("time.clock_settime", RConst (None, Some (3, 3)));
    ("time.clock_settime_ns", RConst (None, Some (3, 7)));
    ("time.get_clock_info", RConst (None, Some (3, 3)));
    ("time.monotonic", RConst (None, Some (3, 3)));
    ("time.monotonic_ns", RConst (None, Some (3, 7)));
    ("time.perf_counter", RConst (None, Some (3, 3)));
    ("time.perf_counter_ns", RConst (None, Some (3, 7)));
    ("time.process_time", RConst (None, Some (3, 3)));
    ("time.process_time_ns", RConst (None, Some (3, 7)));
    ("time.pthread_getcpuclockid", RConst (None, Some (3, 7)));
    ("time.thread_time", RConst (None, Some (3, 7)));
    ("time.thread_time_ns", RConst (None, Some (3, 7)));
    ("time.time_ns", RConst (None, Some (3, 7)));
    ("time.tzset", RConst (Some (2, 3), Some (3, 0)));
    ("timeit.Timer.autorange", RConst (None, Some (3, 6)));
    ("timeit.repeat", RConst (Some (2, 6), Some (3, 0)));
    ("timeit.timeit", RConst (Some (2, 6), Some (3, 0)));
    ("tkinter.info_patchlevel", RConst (None, Some (3, 11)));
    ("tokenize.generate_tokens", RConst (Some (2, 2), Some (3, 0)));
    ("tokenize.open", RConst (None, Some (3, 2)));
    ("tokenize.untokenize", RConst (Some (2, 5), Some (3, 0)));
    ("traceback.StackSummary.format_frame_summary", RConst (None, Some (3, 11)));
    ("traceback.TracebackException.print", RConst (None, Some (3, 11)));
    ("traceback.clear_frames", RConst (None, Some (3, 4)));
    ("traceback.format_exc", RConst (Some (2, 4), Some (3, 0)));
    ("traceback.walk_stack", RConst (None, Some (3, 5)));
    ("traceback.walk_tb", RConst (None, Some (3, 5)));
    ("tracemalloc.reset_peak", RConst (None, Some (3, 9)));
    ("types.CodeType.replace", RConst (None, Some (3, 8)));
    ("types.DynamicClassAttribute", RConst (None, Some (3, 4)));
    ("types.FrameType.clear", RConst (None, Some (3, 4)));
    ("types.coroutine", RConst (None, Some (3, 5)));
    ("types.get_original_bases", RConst (None, Some (3, 12)));
    ("types.new_class", RConst (None, Some (3, 3)));
    ("types.prepare_class", RConst (None, Some (3, 3)));
    ("types.resolve_bases", RConst (None, Some (3, 7)));
    ("typing.assert_never", RConst (None, Some (3, 11)));
    ("typing.assert_type", RConst (None, Some (3, 11)));
    ("typing.clear_overloads", RConst (None, Some (3, 11)));
    ("typing.get_args", RConst (None, Some (3, 8)));
    ("typing.get_origin", RConst (None, Some (3, 8)));
    ("typing.get_overloads", RConst (None, Some (3, 11)));
    ("typing.is_typeddict", RConst (None, Some (3, 10)));
    ("typing.reveal_type", RConst (None, Some (3, 11)));
    ("unicodedata.east_asian_width", RConst (Some (2, 4), Some (3, 0)));
    ("unicodedata.is_normalized", RConst (None, Some (3, 8)));
    ("unicodedata.normalize", RConst (Some (2, 3), Some (3, 0)));
    ("unittest.IsolatedAsyncioTestCase.enterAsyncContext", RConst (None, Some (3, 11)));
    ("unittest.TestCase.addClassCleanup", RConst (None, Some (3, 8)));
    ("unittest.TestCase.addCleanup", RConst (Some (2, 7), Some (3, 1)));
    ("unittest.TestCase.addTypeEqualityFunc", RConst (Some (2, 7), Some (3, 1)));
    ("unittest.TestCase.assertCountEqual", RConst (None, Some (3, 2)));
    ("unittest.TestCase.assertDictContainsSubset", RConst (Some (2, 7), Some (3, 1)));
    ("unittest.TestCase.assertDictEqual", RConst (Some (2, 7), Some (3, 1)));
    ("unittest.TestCase.assertGreater", RConst (Some (2, 7), Some (3, 1)));
    ("unittest.TestCase.assertGreaterEqual", RConst (Some (2, 7), Some (3, 1)));
    ("unittest.TestCase.assertIn", RConst (Some (2, 7), Some (3, 1)));
    ("unittest.TestCase.assertIs", RConst (Some (2, 7), Some (3, 1)));
    ("unittest.TestCase.assertIsInstance", RConst (Some (2, 7), Some (3, 2)));
    ("unittest.TestCase.assertIsNone", RConst (Some (2, 7), Some (3, 1)));
    ("unittest.TestCase.assertIsNot", RConst (Some (2, 7), Some (3, 1)));
    ("unittest.TestCase.assertIsNotNone", RConst (Some (2, 7), Some (3, 1)));
    ("unittest.TestCase.assertItemsEqual", RConst (Some (2, 7), None));
    ("unittest.TestCase.assertLess", RConst (Some (2, 7), Some (3, 1)));
    ("unittest.TestCase.assertLessEqual", RConst (Some (2, 7), Some (3, 1)));
    ("unittest.TestCase.assertListEqual", RConst (Some (2, 7), Some (3, 1)));
    ("unittest.TestCase.assertLogs", RConst (None, Some (3, 4)));
    ("unittest.TestCase.assertMultiLineEqual", RConst (Some (2, 7), Some (3, 1)));
    ("unittest.TestCase.assertNoLogs", RConst (None, Some (3, 10)));
    ("unittest.TestCase.assertNotIn", RConst (Some (2, 7), Some (3, 1)));
    ("unittest.TestCase.assertNotIsInstance", RConst (Some (2, 7), Some (3, 2)));
    ("unittest.TestCase.assertNotRegex", RConst (None, Some (3, 2)));
    ("unittest.TestCase.assertNotRegexpMatches", RConst (Some (2, 7), Some (3, 5)));
    ("unittest.TestCase.assertRaisesRegex", RConst (None, Some (3, 2)));
    ("unittest.TestCase.assertRaisesRegexp", RConst (Some (2, 7), Some (3, 1)));
    ("unittest.TestCase.assertRegex", RConst (None, Some (3, 2)));
    ("unittest.TestCase.assertRegexpMatches", RConst (Some (2, 7), Some (3, 1)));
    ("unittest.TestCase.assertSequenceEqual", RConst (Some (2, 7), Some (3, 1)));
    ("unittest.TestCase.assertSetEqual", RConst (Some (2, 7), Some (3, 1)));
    ("unittest.TestCase.assertTupleEqual", RConst (Some (2, 7), Some (3, 1)));
    ("unittest.TestCase.assertWarns", RConst (None, Some (3, 2)));
    ("unittest.TestCase.assertWarnsRegex", RConst (None, Some (3, 2)));
    ("unittest.TestCase.doClassCleanups", RConst (None, Some (3, 8)));
    ("unittest.TestCase.doCleanups", RConst (Some (2, 7), Some (3, 1)));
    ("unittest.TestCase.enterClassContext", RConst (None, Some (3, 11)));
    ("unittest.TestCase.enterContext", RConst (None, Some (3, 11)));
    ("unittest.TestCase.setUpClass", RConst (Some (2, 7), Some (3, 2)));
    ("unittest.TestCase.skipTest", RConst (Some (2, 7), Some (3, 1)));
    ("unittest.TestCase.subTest", RConst (None, Some (3, 4)));
    ("unittest.TestCase.tearDownClass", RConst (Some (2, 7), Some (3, 2)));
    ("unittest.TestLoader.discover", RConst (Some (2, 7), Some (3, 2)));
    ("unittest.TestResult.addSubTest", RConst (None, Some (3, 4)));
    ("unittest.TestResult.startTestRun", RConst (Some (2, 7), Some (3, 1)));
    ("unittest.TestResult.stopTestRun", RConst (Some (2, 7), Some (3, 1)));
    ("unittest.addModuleCleanup", RConst (None, Some (3, 8)));
    ("unittest.doModuleCleanups", RConst (None, Some (3, 8)));
    ("unittest.enterModuleContext", RConst (None, Some (3, 11)));
    ("unittest.installHandler", RConst (Some (2, 7), Some (3, 2)));
    ("unittest.mock.Mock.assert_called", RConst (None, Some (3, 6)));
    ("unittest.mock.Mock.assert_called_once", RConst (None, Some (3, 6)));
    ("unittest.mock.Mock.assert_not_called", RConst (None, Some (3, 5)));
    ("unittest.mock.seal", RBpv "mock" (None, Some (3, 7)));
    ("unittest.registerResult", RConst (Some (2, 7), Some (3, 2)));
    ("unittest.removeHandler", RConst (Some (2, 7), Some (3, 2)));
    ("unittest.removeResult", RConst (Some (2, 7), Some (3, 2)));
    ("urllib.request.HTTPRedirectHandler.http_error_308", RConst (None, Some (3, 11)));
    ("urllib.request.Request.remove_header", RConst (None, Some (3, 4)));
    ("urllib.robotparser.RobotFileParser.crawl_delay", RConst (None, Some (3, 6)));
    ("urllib.robotparser.RobotFileParser.request_rate", RConst (None, Some (3, 6)));
    ("urllib.robotparser.RobotFileParser.site_maps", RConst (None, Some (3, 8)));
    ("urllib.urlopen.getcode", RConst (Some (2, 6), None));
    ("urllib2.Request.add_unredirected_header", RConst (Some (2, 4), None));
    ("urllib2.Request.has_header", RConst (Some (2, 4), None));
    ("urlparse.ParseResult.geturl", RConst (Some (2, 5), None));
    ("urlparse.parse_qs", RConst (Some (2, 6), None));
    ("urlparse.parse_qsl", RConst (Some (2, 6), None));
    ("urlparse.urlsplit", RConst (Some (2, 2), None));
    ("urlparse.urlunsplit", RConst (Some (2, 2), None));
    ("venv.EnvBuilder.upgrade_dependencies", RConst (None, Some (3, 9)));
    ("venv.create", RConst (None, Some (3, 3)));
    ("warnings.warnpy3k", RConst (Some (2, 6), None));
    ("weakref.WeakKeyDictionary.iterkeyrefs", RConst (Some (2, 5), None));
    ("weakref.WeakKeyDictionary.keyrefs", RConst (Some (2, 5), Some (3, 0)));
    ("weakref.WeakValueDictionary.itervaluerefs", RConst (Some (2, 5), None));
    ("weakref.WeakValueDictionary.valuerefs", RConst (Some (2, 5), Some (3, 0)));
    ("webbrowser.controller.open_new_tab", RConst (Some (2, 5), Some (3, 0)));
    ("webbrowser.open_new_tab", RConst (Some (2, 5), Some (3, 0)));
    ("winreg.CreateKeyEx", RConst (None, Some (3, 2)));
    ("winreg.DeleteKeyEx", RConst (None, Some (3, 2)));
    ("winsound.MessageBeep", RConst (Some (2, 3), Some (3, 0)));
    ("wsgiref.handlers.read_environ", RConst (None, Some (3, 2)));
    ("xml.dom.Node.normalize", RConst (Some (2, 1), Some (3, 0)));
    ("xml.dom.minidom.Node.toprettyxml", RConst (Some (2, 1), Some (3, 0)));
    ("xml.etree.ElementTree.Element.extend", RConst (Some (2, 7), Some (3, 2)));
    ("xml.etree.ElementTree.Element.iter", RConst (Some (2, 7), Some (3, 2)));
    ("xml.etree.ElementTree.Element.iterfind", RConst (Some (2, 7), Some (3, 2)));
    ("xml.etree.ElementTree.Element.itertext", RConst (Some (2, 7), Some (3, 2)));
    ("xml.etree.ElementTree.ElementTree.iterfind", RConst (Some (2, 7), Some (3, 2)));
    ("xml.etree.ElementTree.TreeBuilder.comment", RConst (None, Some (3, 8)));
    ("xml.etree.ElementTree.TreeBuilder.doctype", RConst (Some (2, 7), Some (3, 2)));
    ("xml.etree.ElementTree.TreeBuilder.end_ns", RConst (None, Some (3, 8)));
    ("xml.etree.ElementTree.TreeBuilder.pi", RConst (None, Some (3, 8)));
    ("xml.etree.ElementTree.TreeBuilder.start_ns", RConst (None, Some (3, 8)));
    ("xml.etree.ElementTree.canonicalize", RConst (None, Some (3, 8)));
    ("xml.etree.ElementTree.fromstringlist", RConst (Some (2, 7), Some (3, 2)));
    ("xml.etree.ElementTree.indent", RConst (None, Some (3, 9)));
    ("xml.etree.ElementTree.register_namespace", RConst (Some (2, 7), Some (3, 2)));
    ("xml.etree.ElementTree.tostringlist", RConst (Some (2, 7), Some (3, 2)));
    ("xml.parsers.expat.xmlparser.EntityDeclHandler", RConst (Some (2, 1), Some (3, 0)));
    ("xml.parsers.expat.xmlparser.GetInputContext", RConst (Some (2, 1), Some (3, 0)));
    ("xml.parsers.expat.xmlparser.UseForeignDTD", RConst (Some (2, 3), Some (3, 0)));
    ("xml.parsers.expat.xmlparser.XmlDeclHandler", RConst (Some (2, 1), Some (3, 0)));
    ("xml.parsers.expat.xmlparser.buffer_size", RConst (Some (2, 3), Some (3, 0)));
    ("xml.parsers.expat.xmlparser.buffer_text", RConst (Some (2, 3), Some (3, 0)));
    ("xml.parsers.expat.xmlparser.buffer_used", RConst (Some (2, 3), Some (3, 0)));
    ("xml.parsers.expat.xmlparser.ordered_attributes", RConst (Some (2, 1), Some (3, 0)));
    ("xml.parsers.expat.xmlparser.specified_attributes", RConst (Some (2, 1), Some (3, 0)));
    ("xml.sax.saxutils.quoteattr", RConst (Some (2, 2), Some (3, 0)));
    ("xml.sax.saxutils.unescape", RConst (Some (2, 3), Some (3, 0)));
    ("xmlrpc.server.SimpleXMLRPCServer.register_introspection_functions", RConst (None, Some (3, 0)));
    ("zipfile.ZipFile.extract", RConst (Some (2, 6), Some (3, 0)));
    ("zipfile.ZipFile.extractall", RConst (Some (2, 6), Some (3, 0))) ].
Definition mod_mem_reqs_x_8 : list (string * reqx) :=
  [ ("zipfile.ZipFile.mkdir", RConst (None, Some (3, 11)));
    ("zipfile.ZipFile.open", RConst (Some (2, 6), Some (3, 0)));
    ("zipfile.ZipFile.setpassword", RConst (Some (2, 6), Some (3, 0)));
    ("zipfile.ZipInfo.from_file", RConst (None, Some (3, 6)));
    ("zipfile.ZipInfo.is_dir", RConst (None, Some (3, 6)));
    ("zipimport.zipimporter.create_module", RConst (None, Some (3, 10)));
    ("zipimport.zipimporter.exec_module", RConst (None, Some (3, 10)));
    ("zipimport.zipimporter.find_spec", RConst (None, Some (3, 10)));
    ("zipimport.zipimporter.get_filename", RConst (Some (2, 7), Some (3, 1)));
    ("zipimport.zipimporter.invalidate_caches", RConst (None, Some (3, 10)));
    ("zlib.Compress.copy", RConst (Some (2, 5), Some (3, 0)));
    ("zlib.Decompress.copy", RConst (Some (2, 5), Some (3, 0)));
    ("AttributeError.name", RConst (None, Some (3, 10)));
    ("AttributeError.obj", RConst (None, Some (3, 10)));
    ("BaseException.__suppress_context__", RConst (None, Some (3, 3)));
    ("BaseHTTPServer.BaseHTTPRequestHandler.error_content_type", RConst (Some (2, 6), None));
    ("Cookie.Morsel.httponly", RConst (Some (2, 6), None));
    ("ImportError.name", RConst (None, Some (3, 3)));
    ("ImportError.path", RConst (None, Some (3, 3)));
    ("NameError.name", RConst (None, Some (3, 10)));
    ("OSError.filename2", RConst (None, Some (3, 4)));
    ("SimpleXMLRPCServer.SimpleXMLRPCRequestHandler.encode_threshold", RConst (Some (2, 7), None));
    ("SimpleXMLRPCServer.SimpleXMLRPCRequestHandler.rpc_paths", RConst (Some (2, 5), None));
    ("StopIteration.value", RConst (None, Some (3, 3)));
    ("SyntaxError.end_lineno", RConst (None, Some (3, 10)));
    ("SyntaxError.end_offset", RConst (None, Some (3, 10)));
    ("__future__.absolute_import", RConst (Some (2, 5), Some (3, 0)));
    ("__future__.annotations", RConst (None, Some (3, 7)));
    ("__future__.division", RConst (Some (2, 2), Some (3, 0)));
    ("__future__.generator_stop", RConst (None, Some (3, 5)));
    ("__future__.generators", RConst (Some (2, 2), Some (3, 0)));
    ("__future__.nested_scopes", RConst (Some (2, 1), Some (3, 0)));
    ("__future__.print_function", RConst (Some (2, 6), Some (3, 0)));
    ("__future__.unicode_literals", RConst (Some (2, 6), Some (3, 0)));
    ("__future__.with_statement", RConst (Some (2, 5), Some (3, 0)));
    ("_thread.TIMEOUT_MAX", RConst (None, Some (3, 2)));
    ("ast.PyCF_ALLOW_TOP_LEVEL_AWAIT", RConst (None, Some (3, 8)));
    ("ast.PyCF_TYPE_COMMENTS", RConst (None, Some (3, 8)));
    ("bz2.BZ2Decompressor.eof", RConst (None, Some (3, 3)));
    ("bz2.BZ2Decompressor.needs_input", RConst (None, Some (3, 5)));
    ("calendar.HTMLCalendar.cssclass_month", RConst (None, Some (3, 7)));
    ("calendar.HTMLCalendar.cssclass_month_head", RConst (None, Some (3, 7)));
    ("calendar.HTMLCalendar.cssclass_noday", RConst (None, Some (3, 7)));
    ("calendar.HTMLCalendar.cssclass_year", RConst (None, Some (3, 7)));
    ("calendar.HTMLCalendar.cssclass_year_head", RConst (None, Some (3, 7)));
    ("calendar.HTMLCalendar.cssclasses_weekday_head", RConst (None, Some (3, 7)));
    ("calendar.Day.FRIDAY", RConst (None, Some (3, 12)));
    ("calendar.Day.MONDAY", RConst (None, Some (3, 12)));
    ("calendar.Day.SATURDAY", RConst (None, Some (3, 12)));
    ("calendar.Day.SUNDAY", RConst (None, Some (3, 12)));
    ("calendar.Day.THURSDAY", RConst (None, Some (3, 12)));
    ("calendar.Day.TUESDAY", RConst (None, Some (3, 12)));
    ("calendar.Day.WEDNESDAY", RConst (None, Some (3, 12)));
    ("calendar.FRIDAY", RConst (None, Some (3, 10)));
    ("calendar.MONDAY", RConst (None, Some (3, 10)));
    ("calendar.SATURDAY", RConst (None, Some (3, 10)));
    ("calendar.THURSDAY", RConst (None, Some (3, 10)));
    ("calendar.TUESDAY", RConst (None, Some (3, 10)));
    ("calendar.WEDNESDAY", RConst (None, Some (3, 10)));
    ("calendar.SUNDAY", RConst (None, Some (3, 10)));
    ("calendar.Month.JANUARY", RConst (None, Some (3, 12)));
    ("calendar.Month.FEBRUARY", RConst (None, Some (3, 12)));
    ("calendar.Month.MARCH", RConst (None, Some (3, 12)));
    ("calendar.Month.APRIL", RConst (None, Some (3, 12)));
    ("calendar.Month.MAY", RConst (None, Some (3, 12)));
    ("calendar.Month.JUNE", RConst (None, Some (3, 12)));
    ("calendar.Month.JULY", RConst (None, Some (3, 12)));
    ("calendar.Month.AUGUST", RConst (None, Some (3, 12)));
    ("calendar.Month.SEPTEMBER", RConst (None, Some (3, 12)));
    ("calendar.Month.OCTOBER", RConst (None, Some (3, 12)));
    ("calendar.Month.NOVEMBER", RConst (None, Some (3, 12)));
    ("calendar.Month.DECEMBER", RConst (None, Some (3, 12)));
    ("calendar.JANUARY", RConst (None, Some (3, 12)));
    ("calendar.FEBRUARY", RConst (None, Some (3, 12)));
    ("calendar.MARCH", RConst (None, Some (3, 12)));
    ("calendar.APRIL", RConst (None, Some (3, 12)));
    ("calendar.MAY", RConst (None, Some (3, 12)));
    ("calendar.JUNE", RConst (None, Some (3, 12)));
    ("calendar.JULY", RConst (None, Some (3, 12)));
    ("calendar.AUGUST", RConst (None, Some (3, 12)));
    ("calendar.SEPTEMBER", RConst (None, Some (3, 12)));
    ("calendar.OCTOBER", RConst (None, Some (3, 12)));
    ("calendar.NOVEMBER", RConst (None, Some (3, 12)));
    ("calendar.DECEMBER", RConst (None, Some (3, 12)));
    ("classmethod.__wrapped__", RConst (None, Some (3, 10)));
    ("cmath.inf", RConst (None, Some (3, 6)));
    ("cmath.infj", RConst (None, Some (3, 6)));
    ("cmath.nan", RConst (None, Some (3, 6)));
    ("cmath.nanj", RConst (None, Some (3, 6)));
    ("cmath.tau", RConst (None, Some (3, 6)));
    ("collections.deque.maxlen", RConst (Some (2, 7), Some (3, 1)));
    ("collections.namedtuple._field_defaults", RConst (None, Some (3, 7)));
    ("configparser.DuplicateSectionError.lineno", RBpv "configparser" (None, Some (3, 2)));
    ("configparser.DuplicateSectionError.source", RBpv "configparser" (None, Some (3, 2)));
    ("configparser.ParsingError.source", RBpv "configparser" (None, Some (3, 2)));
    ("cookielib.Cookie.rfc2109", RConst (Some (2, 5), None));
    ("cookielib.DefaultCookiePolicy.rfc2109_as_netscape", RConst (Some (2, 5), None));
    ("dataclasses.KW_ONLY", RConst (None, Some (3, 10)));
    ("crypt.METHOD_BLOWFISH", RConst (None, Some (3, 7)));
    ("crypt.METHOD_CRYPT", RConst (None, Some (3, 3)));
    ("crypt.METHOD_MD5", RConst (None, Some (3, 3)));
    ("crypt.METHOD_SHA256", RConst (None, Some (3, 3)));
    ("crypt.METHOD_SHA512", RConst (None, Some (3, 3)));
    ("crypt.methods", RConst (None, Some (3, 3)));
    ("csv.QUOTE_NOTNULL", RConst (None, Some (3, 12)));
    ("csv.QUOTE_STRINGS", RConst (None, Some (3, 12)));
    ("csv.csvreader.fieldnames", RConst (Some (2, 6), Some (3, 0)));
    ("csv.csvreader.line_num", RConst (Some (2, 5), Some (3, 0)));
    ("curses.A_ITALIC", RConst (None, Some (3, 7)));
    ("curses.ncurses_version", RConst (None, Some (3, 8)));
    ("curses.window.encoding", RConst (None, Some (3, 3)));
    ("datetime.UTC", RConst (None, Some (3, 11)));
    ("datetime.datetime.fold", RConst (None, Some (3, 6)));
    ("datetime.time.fold", RConst (None, Some (3, 6)));
    ("decimal.HAVE_CONTEXTVAR", RConst (None, Some (3, 7)));
    ("difflib.SequenceMatcher.bjunk", RConst (None, Some (3, 2)));
    ("difflib.SequenceMatcher.bpopular", RConst (None, Some (3, 2)));
    ("dis.Instruction.positions", RConst (None, Some (3, 11)));
    ("doctest.COMPARISON_FLAGS", RConst (Some (2, 4), Some (3, 0)));
    ("doctest.DONT_ACCEPT_BLANKLINE", RConst (Some (2, 4), Some (3, 0)));
    ("doctest.ELLIPSIS", RConst (Some (2, 4), Some (3, 0)));
    ("doctest.FAIL_FAST", RConst (None, Some (3, 4)));
    ("doctest.IGNORE_EXCEPTION_DETAIL", RConst (Some (2, 4), Some (3, 0)));
    ("doctest.NORMALIZE_WHITESPACE", RConst (Some (2, 4), Some (3, 0)));
    ("doctest.REPORTING_FLAGS", RConst (Some (2, 4), Some (3, 0)));
    ("doctest.REPORT_CDIFF", RConst (Some (2, 4), Some (3, 0)));
    ("doctest.REPORT_NDIFF", RConst (Some (2, 4), Some (3, 0)));
    ("doctest.REPORT_ONLY_FIRST_FAILURE", RConst (Some (2, 4), Some (3, 0)));
    ("doctest.REPORT_UDIFF", RConst (Some (2, 4), Some (3, 0)));
    ("doctest.SKIP", RConst (Some (2, 5), Some (3, 0)));
    ("email.message.Message.defects", RConst (Some (2, 4), Some (3, 0)));
    ("email.policy.EmailPolicy.content_manager", RConst (None, Some (3, 4)));
    ("email.policy.Policy.message_factory", RConst (None, Some (3, 6)));
    ("errno.EQFULL", RConst (None, Some (3, 11)));
    ("fcntl.F_ADD_SEALS", RConst (None, Some (3, 8)));
    ("fcntl.F_DUP2FD", RConst (None, Some (3, 11)));
    ("fcntl.F_DUP2FD_CLOEXEC", RConst (None, Some (3, 11)));
    ("fcntl.F_GETPATH", RConst (None, Some (3, 9)));
    ("fcntl.F_GETPIPE_SZ", RConst (None, Some (3, 10)));
    ("fcntl.F_GET_SEALS", RConst (None, Some (3, 8)));
    ("fcntl.F_OFD_GETLK", RConst (None, Some (3, 9)));
    ("fcntl.F_OFD_SETLK", RConst (None, Some (3, 9)));
    ("fcntl.F_OFD_SETLKW", RConst (None, Some (3, 9)));
    ("fcntl.F_SEAL_GROW", RConst (None, Some (3, 8)));
    ("fcntl.F_SEAL_SEAL", RConst (None, Some (3, 8)));
    ("fcntl.F_SEAL_SHRINK", RConst (None, Some (3, 8)));
    ("fcntl.F_SEAL_WRITE", RConst (None, Some (3, 8)));
    ("fcntl.F_SETPIPE_SZ", RConst (None, Some (3, 10)));
    ("file.encoding", RConst (Some (2, 3), None));
    ("file.errors", RConst (Some (2, 6), None));
    ("filecmp.DEFAULT_IGNORES", RConst (None, Some (3, 4)));
    ("gc.callbacks", RConst (None, Some (3, 3)));
    ("gzip.GzipFile.mtime", RConst (None, Some (3, 1)));
    ("hashlib.algorithms", RConst (Some (2, 7), None));
    ("hashlib.algorithms_available", RConst (Some (2, 7), Some (3, 2)));
    ("hashlib.algorithms_guaranteed", RConst (Some (2, 7), Some (3, 2)));
    ("hashlib.hash.name", RConst (None, Some (3, 4)));
    ("hmac.HMAC.block_size", RConst (None, Some (3, 4)));
    ("hmac.HMAC.name", RConst (None, Some (3, 4)));
    ("html.entities.html5", RConst (None, Some (3, 3)));
    ("htmlentitydefs.codepoint2name", RConst (Some (2, 3), None));
    ("htmlentitydefs.name2codepoint", RConst (Some (2, 3), None));
    ("http.HTTPStatus.EARLY_HINTS", RConst (None, Some (3, 9)));
    ("http.HTTPStatus.IM_A_TEAPOT", RConst (None, Some (3, 9)));
    ("http.HTTPStatus.MISDIRECTED_REQUEST", RConst (None, Some (3, 7)));
    ("http.HTTPStatus.TOO_EARLY", RConst (None, Some (3, 9)));
    ("http.HTTPStatus.UNAVAILABLE_FOR_LEGAL_REASONS", RConst (None, Some (3, 8)));
    ("http.client.HTTPConnection.blocksize", RConst (None, Some (3, 7)));
    ("httplib.responses", RConst (Some (2, 5), None));
    ("imaplib.IMAP4.utf8_enabled", RConst (None, Some (3, 5)));
    ("importlib.machinery.BYTECODE_SUFFIXES", RConst (None, Some (3, 3)));
    ("importlib.machinery.DEBUG_BYTECODE_SUFFIXES", RConst (None, Some (3, 3)));
    ("importlib.machinery.EXTENSION_SUFFIXES", RConst (None, Some (3, 3)));
    ("importlib.machinery.OPTIMIZED_BYTECODE_SUFFIXES", RConst (None, Some (3, 3)));
    ("importlib.machinery.SOURCE_SUFFIXES", RConst (None, Some (3, 3)));
    ("importlib.metadata.metadata.json", RConst (None, Some (3, 10)));
    ("importlib.util.MAGIC_NUMBER", RConst (None, Some (3, 4)));
    ("inspect.CO_ASYNC_GENERATOR", RConst (None, Some (3, 6)));
    ("inspect.CO_COROUTINE", RConst (None, Some (3, 5)));
    ("inspect.CO_ITERABLE_COROUTINE", RConst (None, Some (3, 5)));
    ("inspect.Parameter.kind.description", RConst (None, Some (3, 8)));
    ("io.SEEK_CUR", RConst (Some (2, 7), Some (3, 1)));
    ("io.SEEK_END", RConst (Some (2, 7), Some (3, 1)));
    ("io.SEEK_SET", RConst (Some (2, 7), Some (3, 1)));
    ("io.TextIOWrapper.write_through", RConst (None, Some (3, 7)));
    ("ipaddress.IPv4Address.is_global", RBpv "ipaddress" (None, Some (3, 4)));
    ("ipaddress.IPv4Address.reverse_pointer", RBpv "ipaddress" (None, Some (3, 5)));
    ("ipaddress.IPv6Address.is_global", RBpv "ipaddress" (None, Some (3, 4)));
    ("keyword.softkwlist", RConst (None, Some (3, 9)));
    ("logging.Formatter.default_msec_format", RConst (None, Some (3, 3)));
    ("logging.Formatter.default_time_format", RConst (None, Some (3, 3)));
    ("logging.LogRecord.funcName", RConst (Some (2, 5), Some (3, 0)));
    ("logging.LogRecord.processName", RConst (Some (2, 6), Some (3, 0)));
    ("logging.LoggerAdapter.manager", RConst (None, Some (3, 6)));
    ("logging.StreamHandler.terminator", RConst (None, Some (3, 2)));
    ("logging.handlers.BaseRotatingHandler.namer", RConst (None, Some (3, 3)));
    ("logging.handlers.BaseRotatingHandler.rotator", RConst (None, Some (3, 3)));
    ("logging.lastResort", RConst (None, Some (3, 2)));
    ("lzma.LZMADecompressor.needs_input", RConst (None, Some (3, 5)));
    ("marshal.version", RConst (Some (2, 4), Some (3, 0))) ].
Definition mod_mem_reqs_x_9 : list (string * reqx) :=
  [ ("math.inf", RConst (None, Some (3, 5)));
    ("math.nan", RConst (None, Some (3, 5)));
    ("math.tau", RConst (None, Some (3, 6)));
    ("mmap.ACCESS_DEFAULT", RConst (None, Some (3, 7)));
    ("mmap.MADV_AUTOSYNC", RConst (None, Some (3, 8)));
    ("mmap.MADV_CORE", RConst (None, Some (3, 8)));
    ("mmap.MADV_DODUMP", RConst (None, Some (3, 8)));
    ("mmap.MADV_DOFORK", RConst (None, Some (3, 8)));
    ("mmap.MADV_DONTDUMP", RConst (None, Some (3, 8)));
    ("mmap.MADV_DONTFORK", RConst (None, Some (3, 8)));
    ("mmap.MADV_DONTNEED", RConst (None, Some (3, 8)));
    ("mmap.MADV_FREE", RConst (None, Some (3, 8)));
    ("mmap.MADV_FREE_REUSABLE", RConst (None, Some (3, 8)));
    ("mmap.MADV_FREE_REUSE", RConst (None, Some (3, 8)));
    ("mmap.MADV_HUGEPAGE", RConst (None, Some (3, 8)));
    ("mmap.MADV_HWPOISON", RConst (None, Some (3, 8)));
    ("mmap.MADV_MERGEABLE", RConst (None, Some (3, 8)));
    ("mmap.MADV_NOCORE", RConst (None, Some (3, 8)));
    ("mmap.MADV_NOHUGEPAGE", RConst (None, Some (3, 8)));
    ("mmap.MADV_NORMAL", RConst (None, Some (3, 8)));
    ("mmap.MADV_NOSYNC", RConst (None, Some (3, 8)));
    ("mmap.MADV_PROTECT", RConst (None, Some (3, 8)));
    ("mmap.MADV_RANDOM", RConst (None, Some (3, 8)));
    ("mmap.MADV_REMOVE", RConst (None, Some (3, 8)));
    ("mmap.MADV_SEQUENTIAL", RConst (None, Some (3, 8)));
    ("mmap.MADV_SOFT_OFFLINE", RConst (None, Some (3, 8)));
    ("mmap.MADV_UNMERGEABLE", RConst (None, Some (3, 8)));
    ("mmap.MADV_WILLNEED", RConst (None, Some (3, 8)));
    ("mmap.MAP_POPULATE", RConst (None, Some (3, 10)));
    ("mmap.MAP_STACK", RConst (None, Some (3, 11)));
    ("mmap.mmap.closed", RConst (None, Some (3, 2)));
    ("multiprocessing.Process.sentinel", RConst (None, Some (3, 3)));
    ("nntplib.NNTP.nntp_implementation", RConst (None, Some (3, 2)));
    ("nntplib.NNTP.nntp_version", RConst (None, Some (3, 2)));
    ("object.__match_args__", RConst (None, Some (3, 10)));
    ("os.CLD_CONTINUED", RConst (None, Some (3, 3)));
    ("os.CLD_DUMPED", RConst (None, Some (3, 3)));
    ("os.CLD_EXITED", RConst (None, Some (3, 3)));
    ("os.CLD_KILLED", RConst (None, Some (3, 9)));
    ("os.CLD_STOPPED", RConst (None, Some (3, 9)));
    ("os.CLD_TRAPPED", RConst (None, Some (3, 3)));
    ("os.EFD_CLOEXEC", RConst (None, Some (3, 10)));
    ("os.EFD_NONBLOCK", RConst (None, Some (3, 10)));
    ("os.EFD_SEMAPHORE", RConst (None, Some (3, 10)));
    ("os.EX_CANTCREAT", RConst (Some (2, 3), Some (3, 0)));
    ("os.EX_CONFIG", RConst (Some (2, 3), Some (3, 0)));
    ("os.EX_DATAERR", RConst (Some (2, 3), Some (3, 0)));
    ("os.EX_IOERR", RConst (Some (2, 3), Some (3, 0)));
    ("os.EX_NOHOST", RConst (Some (2, 3), Some (3, 0)));
    ("os.EX_NOINPUT", RConst (Some (2, 3), Some (3, 0)));
    ("os.EX_NOPERM", RConst (Some (2, 3), Some (3, 0)));
    ("os.EX_NOTFOUND", RConst (Some (2, 3), Some (3, 0)));
    ("os.EX_NOUSER", RConst (Some (2, 3), Some (3, 0)));
    ("os.EX_OK", RConst (Some (2, 3), Some (3, 0)));
    ("os.EX_OSERR", RConst (Some (2, 3), Some (3, 0)));
    ("os.EX_OSFILE", RConst (Some (2, 3), Some (3, 0)));
    ("os.EX_PROTOCOL", RConst (Some (2, 3), Some (3, 0)));
    ("os.EX_SOFTWARE", RConst (Some (2, 3), Some (3, 0)));
    ("os.EX_TEMPFAIL", RConst (Some (2, 3), Some (3, 0)));
    ("os.EX_UNAVAILABLE", RConst (Some (2, 3), Some (3, 0)));
    ("os.EX_USAGE", RConst (Some (2, 3), Some (3, 0)));
    ("os.F_LOCK", RConst (None, Some (3, 3)));
    ("os.F_TEST", RConst (None, Some (3, 3)));
    ("os.F_TLOCK", RConst (None, Some (3, 3)));
    ("os.F_ULOCK", RConst (None, Some (3, 3)));
    ("os.GRND_NONBLOCK", RConst (None, Some (3, 6)));
    ("os.GRND_RANDOM", RConst (None, Some (3, 6)));
    ("os.MFD_ALLOW_SEALING", RConst (None, Some (3, 8)));
    ("os.MFD_CLOEXEC", RConst (None, Some (3, 8)));
    ("os.MFD_HUGETLB", RConst (None, Some (3, 8)));
    ("os.MFD_HUGE_16GB", RConst (None, Some (3, 8)));
    ("os.MFD_HUGE_16MB", RConst (None, Some (3, 8)));
    ("os.MFD_HUGE_1GB", RConst (None, Some (3, 8)));
    ("os.MFD_HUGE_1MB", RConst (None, Some (3, 8)));
    ("os.MFD_HUGE_256MB", RConst (None, Some (3, 8)));
    ("os.MFD_HUGE_2GB", RConst (None, Some (3, 8)));
    ("os.MFD_HUGE_2MB", RConst (None, Some (3, 8)));
    ("os.MFD_HUGE_32MB", RConst (None, Some (3, 8)));
    ("os.MFD_HUGE_512KB", RConst (None, Some (3, 8)));
    ("os.MFD_HUGE_512MB", RConst (None, Some (3, 8)));
    ("os.MFD_HUGE_64KB", RConst (None, Some (3, 8)));
    ("os.MFD_HUGE_8MB", RConst (None, Some (3, 8)));
    ("os.MFD_HUGE_MASK", RConst (None, Some (3, 8)));
    ("os.MFD_HUGE_SHIFT", RConst (None, Some (3, 8)));
    ("os.O_CLOEXEC", RConst (None, Some (3, 3)));
    ("os.O_EVTONLY", RConst (None, Some (3, 10)));
    ("os.O_FSYNC", RConst (None, Some (3, 10)));
    ("os.O_NOFOLLOW_ANY", RConst (None, Some (3, 10)));
    ("os.O_PATH", RConst (None, Some (3, 4)));
    ("os.O_SYMLINK", RConst (None, Some (3, 10)));
    ("os.O_TMPFILE", RConst (None, Some (3, 4)));
    ("os.PIDFD_NONBLOCK", RConst (None, Some (3, 12)));
    ("os.POSIX_FADV_DONTNEED", RConst (None, Some (3, 3)));
    ("os.POSIX_FADV_NOREUSE", RConst (None, Some (3, 3)));
    ("os.POSIX_FADV_NORMAL", RConst (None, Some (3, 3)));
    ("os.POSIX_FADV_RANDOM", RConst (None, Some (3, 3)));
    ("os.POSIX_FADV_SEQUENTIAL", RConst (None, Some (3, 3)));
    ("os.POSIX_FADV_WILLNEED", RConst (None, Some (3, 3)));
    ("os.POSIX_SPAWN_CLOSE", RConst (None, Some (3, 8)));
    ("os.POSIX_SPAWN_DUP2", RConst (None, Some (3, 8)));
    ("os.POSIX_SPAWN_OPEN", RConst (None, Some (3, 8)));
    ("os.PRIO_DARWIN_BG", RConst (None, Some (3, 12)));
    ("os.PRIO_DARWIN_NONUI", RConst (None, Some (3, 12)));
    ("os.PRIO_DARWIN_PROCESS", RConst (None, Some (3, 12)));
    ("os.PRIO_DARWIN_THREAD", RConst (None, Some (3, 12)));
    ("os.PRIO_PGRP", RConst (None, Some (3, 3)));
    ("os.PRIO_PROCESS", RConst (None, Some (3, 3)));
    ("os.PRIO_USER", RConst (None, Some (3, 3)));
    ("os.P_ALL", RConst (None, Some (3, 3)));
    ("os.P_PGID", RConst (None, Some (3, 3)));
    ("os.P_PID", RConst (None, Some (3, 3)));
    ("os.P_PIDFD", RConst (None, Some (3, 9)));
    ("os.RTLD_DEEPBIND", RConst (None, Some (3, 3)));
    ("os.RTLD_GLOBAL", RConst (None, Some (3, 3)));
    ("os.RTLD_LAZY", RConst (None, Some (3, 3)));
    ("os.RTLD_LOCAL", RConst (None, Some (3, 3)));
    ("os.RTLD_NODELETE", RConst (None, Some (3, 3)));
    ("os.RTLD_NOLOAD", RConst (None, Some (3, 3)));
    ("os.RTLD_NOW", RConst (None, Some (3, 3)));
    ("os.RWF_APPEND", RConst (None, Some (3, 10)));
    ("os.RWF_DSYNC", RConst (None, Some (3, 7)));
    ("os.RWF_HIPRI", RConst (None, Some (3, 7)));
    ("os.RWF_NOWAIT", RConst (None, Some (3, 7)));
    ("os.RWF_SYNC", RConst (None, Some (3, 7)));
    ("os.SCHED_BATCH", RConst (None, Some (3, 3)));
    ("os.SCHED_FIFO", RConst (None, Some (3, 3)));
    ("os.SCHED_IDLE", RConst (None, Some (3, 3)));
    ("os.SCHED_OTHER", RConst (None, Some (3, 3)));
    ("os.SCHED_RESET_ON_FORK", RConst (None, Some (3, 3)));
    ("os.SCHED_RR", RConst (None, Some (3, 3)));
    ("os.SCHED_SPORADIC", RConst (None, Some (3, 3)));
    ("os.SEEK_CUR", RConst (Some (2, 5), Some (3, 0)));
    ("os.SEEK_DATA", RConst (None, Some (3, 3)));
    ("os.SEEK_END", RConst (Some (2, 5), Some (3, 0)));
    ("os.SEEK_HOLE", RConst (None, Some (3, 3)));
    ("os.SEEK_SET", RConst (Some (2, 5), Some (3, 0)));
    ("os.SF_MNOWAIT", RConst (None, Some (3, 3)));
    ("os.SF_NOCACHE", RConst (None, Some (3, 11)));
    ("os.SF_NODISKIO", RConst (None, Some (3, 3)));
    ("os.SF_SYNC", RConst (None, Some (3, 3)));
    ("os.SPLICE_F_MORE", RConst (None, Some (3, 10)));
    ("os.SPLICE_F_MOVE", RConst (None, Some (3, 10)));
    ("os.SPLICE_F_NONBLOCK", RConst (None, Some (3, 10)));
    ("os.ST_APPEND", RConst (None, Some (3, 4)));
    ("os.ST_IMMUTABLE", RConst (None, Some (3, 4)));
    ("os.ST_MANDLOCK", RConst (None, Some (3, 4)));
    ("os.ST_NOATIME", RConst (None, Some (3, 4)));
    ("os.ST_NODEV", RConst (None, Some (3, 4)));
    ("os.ST_NODIRATIME", RConst (None, Some (3, 4)));
    ("os.ST_NOEXEC", RConst (None, Some (3, 4)));
    ("os.ST_NOSUID", RConst (None, Some (3, 2)));
    ("os.ST_RDONLY", RConst (None, Some (3, 2)));
    ("os.ST_RELATIME", RConst (None, Some (3, 4)));
    ("os.ST_SYNCHRONOUS", RConst (None, Some (3, 4)));
    ("os.ST_WRITE", RConst (None, Some (3, 4)));
    ("os.WCONTINUED", RConst (Some (2, 3), Some (3, 0)));
    ("os.WEXITED", RConst (None, Some (3, 3)));
    ("os.WNOWAIT", RConst (None, Some (3, 3)));
    ("os.WSTOPPED", RConst (None, Some (3, 3)));
    ("os.WUNTRACED", RConst (Some (2, 3), Some (3, 0)));
    ("os.XATTR_CREATE", RConst (None, Some (3, 3)));
    ("os.XATTR_REPLACE", RConst (None, Some (3, 3)));
    ("os.XATTR_SIZE_MAX", RConst (None, Some (3, 3)));
    ("os._COPYFILE_ACL", RConst (None, Some (3, 11)));
    ("os._COPYFILE_STAT", RConst (None, Some (3, 11)));
    ("os._COPYFILE_XATTR", RConst (None, Some (3, 11)));
    ("os.devnull", RConst (Some (2, 4), Some (3, 0)));
    ("os.environb", RConst (None, Some (3, 2)));
    ("os.extsep", RConst (Some (2, 2), Some (3, 0)));
    ("os.killpg", RConst (Some (2, 3), Some (3, 0)));
    ("os.path.supports_unicode_filenames", RConst (Some (2, 3), Some (3, 0)));
    ("os.stat.st_atime", RConst (Some (2, 2), Some (3, 0)));
    ("os.stat.st_atime_ns", RConst (None, Some (3, 3)));
    ("os.stat.st_attrs", RConst (Some (2, 2), Some (3, 0)));
    ("os.stat.st_birthtime", RConst (Some (2, 5), Some (3, 0)));
    ("os.stat.st_birthtime_ns", RConst (None, Some (3, 12)));
    ("os.stat.st_blksize", RConst (Some (2, 2), Some (3, 0)));
    ("os.stat.st_blocks", RConst (Some (2, 2), Some (3, 0)));
    ("os.stat.st_ctime", RConst (Some (2, 2), Some (3, 0)));
    ("os.stat.st_ctime_ns", RConst (None, Some (3, 3)));
    ("os.stat.st_dev", RConst (Some (2, 2), Some (3, 0)));
    ("os.stat.st_file_attributes", RConst (None, Some (3, 5)));
    ("os.stat.st_flags", RConst (Some (2, 2), Some (3, 0)));
    ("os.stat.st_ftype", RConst (Some (2, 2), Some (3, 0)));
    ("os.stat.st_gen", RConst (Some (2, 5), Some (3, 0)));
    ("os.stat.st_gid", RConst (Some (2, 2), Some (3, 0)));
    ("os.stat.st_ino", RConst (Some (2, 2), Some (3, 0)));
    ("os.stat.st_mode", RConst (Some (2, 2), Some (3, 0)));
    ("os.stat.st_mtime", RConst (Some (2, 2), Some (3, 0)));
    ("os.stat.st_mtime_ns", RConst (None, Some (3, 3)));
    ("os.stat.st_nlink", RConst (Some (2, 2), Some (3, 0)));
    ("os.stat.st_obtype", RConst (Some (2, 2), Some (3, 0)));
    ("os.stat.st_rdev", RConst (Some (2, 2), Some (3, 0)));
    ("os.stat.st_reparse_tag", RConst (None, Some (3, 8)));
    ("os.stat.st_size", RConst (Some (2, 2), Some (3, 0)));
    ("os.stat.st_uid", RConst (Some (2, 2), Some (3, 0)));
    ("os.statvfs.f_bavail", RConst (Some (2, 2), Some (3, 0)));
    ("os.statvfs.f_bfree", RConst (Some (2, 2), Some (3, 0)));
    ("os.statvfs.f_blocks", RConst (Some (2, 2), Some (3, 0)));
    ("os.statvfs.f_bsize", RConst (Some (2, 2), Some (3, 0))) ].
Definition mod_mem_reqs_x_10 : list (string * reqx) :=
  [ ("os.statvfs.f_favail", RConst (Some (2, 2), Some (3, 0)));
    ("os.statvfs.f_ffree", RConst (Some (2, 2), Some (3, 0)));
    ("os.statvfs.f_files", RConst (Some (2, 2), Some (3, 0)));
    ("os.statvfs.f_flag", RConst (Some (2, 2), Some (3, 0)));
    ("os.statvfs.f_frsize", RConst (Some (2, 2), Some (3, 0)));
    ("os.statvfs.f_fsid", RConst (None, Some (3, 7)));
    ("os.statvfs.f_namemax", RConst (Some (2, 2), Some (3, 0)));
    ("os.supports_bytes_environ", RConst (None, Some (3, 2)));
    ("os.supports_dir_fd", RConst (None, Some (3, 3)));
    ("os.supports_effective_ids", RConst (None, Some (3, 3)));
    ("os.supports_fd", RConst (None, Some (3, 3)));
    ("os.supports_follow_symlinks", RConst (None, Some (3, 3)));
    ("pickle.HIGHEST_PROTOCOL", RConst (Some (2, 3), Some (3, 0)));
    ("pickle.Pickler.dispatch_table", RConst (None, Some (3, 3)));
    ("plistlib.FMT_BINARY", RConst (None, Some (3, 4)));
    ("plistlib.FMT_XML", RConst (None, Some (3, 4)));
    ("pstats.SortKey", RConst (None, Some (3, 7)));
    ("pyclbr.Class.children", RConst (None, Some (3, 7)));
    ("pyclbr.Class.end_lineno", RConst (None, Some (3, 10)));
    ("pyclbr.Class.parent", RConst (None, Some (3, 7)));
    ("pyclbr.Function.children", RConst (None, Some (3, 7)));
    ("pyclbr.Function.end_lineno", RConst (None, Some (3, 10)));
    ("pyclbr.Function.is_async", RConst (None, Some (3, 10)));
    ("pyclbr.Function.parent", RConst (None, Some (3, 7)));
    ("range.start", RConst (None, Some (3, 3)));
    ("range.step", RConst (None, Some (3, 3)));
    ("range.stop", RConst (None, Some (3, 3)));
    ("re.NOFLAG", RConst (None, Some (3, 11)));
    ("re.U", RConst (Some (2, 0), Some (3, 0)));
    ("re.UNICODE", RConst (Some (2, 0), Some (3, 0)));
    ("re.error.colno", RConst (None, Some (3, 5)));
    ("re.error.lineno", RConst (None, Some (3, 5)));
    ("re.error.msg", RConst (None, Some (3, 5)));
    ("re.error.pattern", RConst (None, Some (3, 5)));
    ("re.error.pos", RConst (None, Some (3, 5)));
    ("reprlib.Repr.fillvalue", RConst (None, Some (3, 11)));
    ("repr.Repr.maxfrozenset", RConst (Some (2, 4), None));
    ("repr.Repr.maxset", RConst (Some (2, 4), None));
    ("resource.RLIMIT_KQUEUES", RConst (None, Some (3, 10)));
    ("resource.RLIMIT_MSGQUEUE", RConst (None, Some (3, 4)));
    ("resource.RLIMIT_NICE", RConst (None, Some (3, 4)));
    ("resource.RLIMIT_NPTS", RConst (None, Some (3, 4)));
    ("resource.RLIMIT_RTPRIO", RConst (None, Some (3, 4)));
    ("resource.RLIMIT_RTTIME", RConst (None, Some (3, 4)));
    ("resource.RLIMIT_SBSIZE", RConst (None, Some (3, 4)));
    ("resource.RLIMIT_SIGPENDING", RConst (None, Some (3, 4)));
    ("resource.RLIMIT_SWAP", RConst (None, Some (3, 4)));
    ("resource.RUSAGE_THREAD", RConst (None, Some (3, 2)));
    ("resource.getrusage.ru_idrss", RConst (Some (2, 3), Some (3, 0)));
    ("resource.getrusage.ru_inblock", RConst (Some (2, 3), Some (3, 0)));
    ("resource.getrusage.ru_isrss", RConst (Some (2, 3), Some (3, 0)));
    ("resource.getrusage.ru_ixrss", RConst (Some (2, 3), Some (3, 0)));
    ("resource.getrusage.ru_majflt", RConst (Some (2, 3), Some (3, 0)));
    ("resource.getrusage.ru_maxrss", RConst (Some (2, 3), Some (3, 0)));
    ("resource.getrusage.ru_minflt", RConst (Some (2, 3), Some (3, 0)));
    ("resource.getrusage.ru_msgrcv", RConst (Some (2, 3), Some (3, 0)));
    ("resource.getrusage.ru_msgsnd", RConst (Some (2, 3), Some (3, 0)));
    ("resource.getrusage.ru_nivcsw", RConst (Some (2, 3), Some (3, 0)));
    ("resource.getrusage.ru_nsignals", RConst (Some (2, 3), Some (3, 0)));
    ("resource.getrusage.ru_nswap", RConst (Some (2, 3), Some (3, 0)));
    ("resource.getrusage.ru_nvcsw", RConst (Some (2, 3), Some (3, 0)));
    ("resource.getrusage.ru_oublock", RConst (Some (2, 3), Some (3, 0)));
    ("resource.getrusage.ru_stime", RConst (Some (2, 3), Some (3, 0)));
    ("resource.getrusage.ru_utime", RConst (Some (2, 3), Some (3, 0)));
    ("sched.scheduler.queue", RConst (Some (2, 6), Some (3, 0)));
    ("select.EPOLLEXCLUSIVE", RConst (None, Some (3, 6)));
    ("select.PIPE_BUF", RConst (Some (2, 7), Some (3, 2)));
    ("select.devpoll.closed", RConst (None, Some (3, 4)));
    ("shlex.shlex.eof", RConst (Some (2, 3), Some (3, 0)));
    ("shlex.shlex.escape", RConst (Some (2, 3), Some (3, 0)));
    ("shlex.shlex.escapedquotes", RConst (Some (2, 3), Some (3, 0)));
    ("shlex.shlex.punctuation_chars", RConst (None, Some (3, 6)));
    ("shlex.shlex.whitespace_split", RConst (Some (2, 3), Some (3, 0)));
    ("shutil.rmtree.avoids_symlink_attacks", RConst (None, Some (3, 3)));
    ("signal.CTRL_BREAK_EVENT", RConst (Some (2, 7), Some (3, 2)));
    ("signal.CTRL_C_EVENT", RConst (Some (2, 7), Some (3, 2)));
    ("signal.SIGSTKFLT", RConst (None, Some (3, 11)));
    ("signal.SIG_BLOCK", RConst (None, Some (3, 3)));
    ("signal.SIG_SETMASK", RConst (None, Some (3, 3)));
    ("signal.SIG_UNBLOCK", RConst (None, Some (3, 3)));
    ("site.ENABLE_USER_SITE", RConst (Some (2, 6), Some (3, 0)));
    ("site.PREFIXES", RConst (Some (2, 6), Some (3, 0)));
    ("site.USER_BASE", RConst (Some (2, 6), Some (3, 0)));
    ("site.USER_SITE", RConst (Some (2, 6), Some (3, 0)));
    ("socket.AF_ALG", RConst (None, Some (3, 6)));
    ("socket.AF_CAN", RConst (None, Some (3, 3)));
    ("socket.AF_LINK", RConst (None, Some (3, 4)));
    ("socket.AF_QIPCRTR", RConst (None, Some (3, 8)));
    ("socket.AF_RDS", RConst (None, Some (3, 3)));
    ("socket.AF_TIPC", RConst (Some (2, 6), Some (3, 0)));
    ("socket.AF_VSOCK", RConst (None, Some (3, 7)));
    ("socket.ALG_OP_DECRYPT", RConst (None, Some (3, 6)));
    ("socket.ALG_OP_ENCRYPT", RConst (None, Some (3, 6)));
    ("socket.ALG_OP_SIGN", RConst (None, Some (3, 6)));
    ("socket.ALG_OP_VERIFY", RConst (None, Some (3, 6)));
    ("socket.ALG_SET_AEAD_ASSOCLEN", RConst (None, Some (3, 6)));
    ("socket.ALG_SET_AEAD_AUTHSIZE", RConst (None, Some (3, 6)));
    ("socket.ALG_SET_IV", RConst (None, Some (3, 6)));
    ("socket.ALG_SET_KEY", RConst (None, Some (3, 6)));
    ("socket.ALG_SET_OP", RConst (None, Some (3, 6)));
    ("socket.ALG_SET_PUBKEY", RConst (None, Some (3, 6)));
    ("socket.CAN_BCM", RConst (None, Some (3, 4)));
    ("socket.CAN_BCM_CAN_FD_FRAME", RConst (None, Some (3, 4)));
    ("socket.CAN_BCM_RX_ANNOUNCE_RESUME", RConst (None, Some (3, 4)));
    ("socket.CAN_BCM_RX_CHANGED", RConst (None, Some (3, 4)));
    ("socket.CAN_BCM_RX_CHECK_DLC", RConst (None, Some (3, 4)));
    ("socket.CAN_BCM_RX_DELETE", RConst (None, Some (3, 4)));
    ("socket.CAN_BCM_RX_FILTER_ID", RConst (None, Some (3, 4)));
    ("socket.CAN_BCM_RX_NO_AUTOTIMER", RConst (None, Some (3, 4)));
    ("socket.CAN_BCM_RX_READ", RConst (None, Some (3, 4)));
    ("socket.CAN_BCM_RX_RTR_FRAME", RConst (None, Some (3, 4)));
    ("socket.CAN_BCM_RX_SETUP", RConst (None, Some (3, 4)));
    ("socket.CAN_BCM_RX_STATUS", RConst (None, Some (3, 4)));
    ("socket.CAN_BCM_RX_TIMEOUT", RConst (None, Some (3, 4)));
    ("socket.CAN_BCM_SETTIMER", RConst (None, Some (3, 4)));
    ("socket.CAN_BCM_STARTTIMER", RConst (None, Some (3, 4)));
    ("socket.CAN_BCM_TX_ANNOUNCE", RConst (None, Some (3, 4)));
    ("socket.CAN_BCM_TX_COUNTEVT", RConst (None, Some (3, 4)));
    ("socket.CAN_BCM_TX_CP_CAN_ID", RConst (None, Some (3, 4)));
    ("socket.CAN_BCM_TX_DELETE", RConst (None, Some (3, 4)));
    ("socket.CAN_BCM_TX_EXPIRED", RConst (None, Some (3, 4)));
    ("socket.CAN_BCM_TX_READ", RConst (None, Some (3, 4)));
    ("socket.CAN_BCM_TX_RESET_MULTI_IDX", RConst (None, Some (3, 4)));
    ("socket.CAN_BCM_TX_SEND", RConst (None, Some (3, 4)));
    ("socket.CAN_BCM_TX_SETUP", RConst (None, Some (3, 4)));
    ("socket.CAN_BCM_TX_STATUS", RConst (None, Some (3, 4)));
    ("socket.CAN_EFF_FLAG", RConst (None, Some (3, 3)));
    ("socket.CAN_EFF_MASK", RConst (None, Some (3, 3)));
    ("socket.CAN_ERR_FLAG", RConst (None, Some (3, 3)));
    ("socket.CAN_ERR_MASK", RConst (None, Some (3, 3)));
    ("socket.CAN_ISOTP", RConst (None, Some (3, 7)));
    ("socket.CAN_J1939", RConst (None, Some (3, 9)));
    ("socket.CAN_RAW", RConst (None, Some (3, 3)));
    ("socket.CAN_RAW_ERR_FILTER", RConst (None, Some (3, 3)));
    ("socket.CAN_RAW_FD_FRAMES", RConst (None, Some (3, 5)));
    ("socket.CAN_RAW_FILTER", RConst (None, Some (3, 3)));
    ("socket.CAN_RAW_JOIN_FILTERS", RConst (None, Some (3, 9)));
    ("socket.CAN_RAW_LOOPBACK", RConst (None, Some (3, 3)));
    ("socket.CAN_RAW_RECV_OWN_MSGS", RConst (None, Some (3, 3)));
    ("socket.CAN_RTR_FLAG", RConst (None, Some (3, 3)));
    ("socket.CAN_SFF_MASK", RConst (None, Some (3, 3)));
    ("socket.IOCTL_VM_SOCKETS_GET_LOCAL_CID", RConst (None, Some (3, 7)));
    ("socket.IPPROTO_MPTCP", RConst (None, Some (3, 10)));
    ("socket.IPPROTO_UDPLITE", RConst (None, Some (3, 9)));
    ("socket.IP_RECVTOS", RConst (None, Some (3, 10)));
    ("socket.LOCAL_CREDS", RConst (None, Some (3, 11)));
    ("socket.LOCAL_CREDS_PERSISTENT", RConst (None, Some (3, 11)));
    ("socket.PF_CAN", RConst (None, Some (3, 3)));
    ("socket.PF_RDS", RConst (None, Some (3, 3)));
    ("socket.RCVALL_IPLEVEL", RConst (Some (2, 6), Some (3, 0)));
    ("socket.RCVALL_MAX", RConst (Some (2, 6), Some (3, 0)));
    ("socket.RCVALL_OFF", RConst (Some (2, 6), Some (3, 0)));
    ("socket.RCVALL_ON", RConst (Some (2, 6), Some (3, 0)));
    ("socket.RCVALL_SOCKETLEVELONLY", RConst (Some (2, 6), Some (3, 0)));
    ("socket.RDS_CANCEL_SENT_TO", RConst (None, Some (3, 3)));
    ("socket.RDS_CMSG_RDMA_ARGS", RConst (None, Some (3, 3)));
    ("socket.RDS_CMSG_RDMA_DEST", RConst (None, Some (3, 3)));
    ("socket.RDS_CMSG_RDMA_MAP", RConst (None, Some (3, 3)));
    ("socket.RDS_CMSG_RDMA_STATUS", RConst (None, Some (3, 3)));
    ("socket.RDS_CMSG_RDMA_UPDATE", RConst (None, Some (3, 3)));
    ("socket.RDS_CONG_MONITOR", RConst (None, Some (3, 3)));
    ("socket.RDS_FREE_MR", RConst (None, Some (3, 3)));
    ("socket.RDS_GET_MR", RConst (None, Some (3, 3)));
    ("socket.RDS_GET_MR_FOR_DEST", RConst (None, Some (3, 3)));
    ("socket.RDS_RDMA_DONTWAIT", RConst (None, Some (3, 3)));
    ("socket.RDS_RDMA_FENCE", RConst (None, Some (3, 3)));
    ("socket.RDS_RDMA_INVALIDATE", RConst (None, Some (3, 3)));
    ("socket.RDS_RDMA_NOTIFY_ME", RConst (None, Some (3, 3)));
    ("socket.RDS_RDMA_READWRITE", RConst (None, Some (3, 3)));
    ("socket.RDS_RDMA_SILENT", RConst (None, Some (3, 3)));
    ("socket.RDS_RDMA_USE_ONCE", RConst (None, Some (3, 3)));
    ("socket.RDS_RECVERR", RConst (None, Some (3, 3)));
    ("socket.SCM_CREDS2", RConst (None, Some (3, 11)));
    ("socket.SIO_KEEPALIVE_VALS", RConst (Some (2, 6), Some (3, 0)));
    ("socket.SIO_LOOPBACK_FAST_PATH", RConst (None, Some (3, 6)));
    ("socket.SIO_RCVALL", RConst (Some (2, 6), Some (3, 0)));
    ("socket.SOCK_CLOEXEC", RConst (None, Some (3, 2)));
    ("socket.SOCK_NONBLOCK", RConst (None, Some (3, 2)));
    ("socket.SOL_ALG", RConst (None, Some (3, 6)));
    ("socket.SOL_CAN_BASE", RConst (None, Some (3, 3)));
    ("socket.SOL_CAN_RAW", RConst (None, Some (3, 3)));
    ("socket.SOL_RDS", RConst (None, Some (3, 3)));
    ("socket.SOL_TIPC", RConst (Some (2, 6), Some (3, 0)));
    ("socket.SO_DOMAIN", RConst (None, Some (3, 6)));
    ("socket.SO_INCOMING_CPU", RConst (None, Some (3, 11)));
    ("socket.SO_PASSSEC", RConst (None, Some (3, 6)));
    ("socket.SO_PEERSEC", RConst (None, Some (3, 6)));
    ("socket.SO_PROTOCOL", RConst (None, Some (3, 6)));
    ("socket.SO_VM_SOCKETS_BUFFER_MAX_SIZE", RConst (None, Some (3, 7)));
    ("socket.SO_VM_SOCKETS_BUFFER_MIN_SIZE", RConst (None, Some (3, 7)));
    ("socket.SO_VM_SOCKETS_BUFFER_SIZE", RConst (None, Some (3, 7)));
    ("socket.TCP_CONGESTION", RConst (None, Some (3, 6)));
    ("socket.TCP_CONNECTION_INFO", RConst (None, Some (3, 11)));
    ("socket.TCP_KEEPALIVE", RConst (None, Some (3, 10)));
    ("socket.TCP_NOTSENT_LOWAT", RConst (None, Some (3, 7)));
    ("socket.TCP_USER_TIMEOUT", RConst (None, Some (3, 6)));
    ("socket.TIPC_ADDR_ID", RConst (Some (2, 6), Some (3, 0)));
    ("socket.TIPC_ADDR_NAME", RConst (Some (2, 6), Some (3, 0)));
    ("socket.TIPC_ADDR_NAMESEQ", RConst (Some (2, 6), Some (3, 0)));
    ("socket.TIPC_CFG_SRV", RConst (Some (2, 6), Some (3, 0))) ].
Definition mod_mem_reqs_x_11 : list (string * reqx) :=
  [ ("socket.TIPC_CLUSTER_SCOPE", RConst (Some (2, 6), Some (3, 0)));
    ("socket.TIPC_CONN_TIMEOUT", RConst (Some (2, 6), Some (3, 0)));
    ("socket.TIPC_CRITICAL_IMPORTANCE", RConst (Some (2, 6), Some (3, 0)));
    ("socket.TIPC_DEST_DROPPABLE", RConst (Some (2, 6), Some (3, 0)));
    ("socket.TIPC_HIGH_IMPORTANCE", RConst (Some (2, 6), Some (3, 0)));
    ("socket.TIPC_IMPORTANCE", RConst (Some (2, 6), Some (3, 0)));
    ("socket.TIPC_LOW_IMPORTANCE", RConst (Some (2, 6), Some (3, 0)));
    ("socket.TIPC_MEDIUM_IMPORTANCE", RConst (Some (2, 6), Some (3, 0)));
    ("socket.TIPC_NODE_SCOPE", RConst (Some (2, 6), Some (3, 0)));
    ("socket.TIPC_PUBLISHED", RConst (Some (2, 6), Some (3, 0)));
    ("socket.TIPC_SRC_DROPPABLE", RConst (Some (2, 6), Some (3, 0)));
    ("socket.TIPC_SUBSCR_TIMEOUT", RConst (Some (2, 6), Some (3, 0)));
    ("socket.TIPC_SUB_CANCEL", RConst (Some (2, 6), Some (3, 0)));
    ("socket.TIPC_SUB_PORTS", RConst (Some (2, 6), Some (3, 0)));
    ("socket.TIPC_SUB_SERVICE", RConst (Some (2, 6), Some (3, 0)));
    ("socket.TIPC_TOP_SRV", RConst (Some (2, 6), Some (3, 0)));
    ("socket.TIPC_WAIT_FOREVER", RConst (Some (2, 6), Some (3, 0)));
    ("socket.TIPC_WITHDRAWN", RConst (Some (2, 6), Some (3, 0)));
    ("socket.TIPC_ZONE_SCOPE", RConst (Some (2, 6), Some (3, 0)));
    ("socket.VMADDR_CID_ANY", RConst (None, Some (3, 7)));
    ("socket.VMADDR_CID_HOST", RConst (None, Some (3, 7)));
    ("socket.VMADDR_PORT_ANY", RConst (None, Some (3, 7)));
    ("socket.has_ipv6", RConst (Some (2, 3), Some (3, 0)));
    ("socket.socket.family", RConst (Some (2, 5), Some (3, 0)));
    ("socket.socket.proto", RConst (Some (2, 5), Some (3, 0)));
    ("socket.socket.type", RConst (Some (2, 5), Some (3, 0)));
    ("socketserver.ForkingMixIn.block_on_close", RConst (None, Some (3, 7)));
    ("socketserver.ThreadingMixIn.block_on_close", RConst (None, Some (3, 7)));
    ("sqlite3.Connection.autocommit", RConst (None, Some (3, 12)));
    ("sqlite3.Error.sqlite_errorcode", RConst (None, Some (3, 11)));
    ("sqlite3.Error.sqlite_errorname", RConst (None, Some (3, 11)));
    ("sqlite3.SQLITE_DBCONFIG_DEFENSIVE", RConst (None, Some (3, 12)));
    ("sqlite3.SQLITE_DBCONFIG_DQS_DDL", RConst (None, Some (3, 12)));
    ("sqlite3.SQLITE_DBCONFIG_DQS_DML", RConst (None, Some (3, 12)));
    ("sqlite3.SQLITE_DBCONFIG_ENABLE_FKEY", RConst (None, Some (3, 12)));
    ("sqlite3.SQLITE_DBCONFIG_ENABLE_FTS3_TOKENIZER", RConst (None, Some (3, 12)));
    ("sqlite3.SQLITE_DBCONFIG_ENABLE_LOAD_EXTENSION", RConst (None, Some (3, 12)));
    ("sqlite3.SQLITE_DBCONFIG_ENABLE_QPSG", RConst (None, Some (3, 12)));
    ("sqlite3.SQLITE_DBCONFIG_ENABLE_TRIGGER", RConst (None, Some (3, 12)));
    ("sqlite3.SQLITE_DBCONFIG_ENABLE_VIEW", RConst (None, Some (3, 12)));
    ("sqlite3.SQLITE_DBCONFIG_LEGACY_ALTER_TABLE", RConst (None, Some (3, 12)));
    ("sqlite3.SQLITE_DBCONFIG_LEGACY_FILE_FORMAT", RConst (None, Some (3, 12)));
    ("sqlite3.SQLITE_DBCONFIG_NO_CKPT_ON_CLOSE", RConst (None, Some (3, 12)));
    ("sqlite3.SQLITE_DBCONFIG_RESET_DATABASE", RConst (None, Some (3, 12)));
    ("sqlite3.SQLITE_DBCONFIG_TRIGGER_EQP", RConst (None, Some (3, 12)));
    ("sqlite3.SQLITE_DBCONFIG_TRUSTED_SCHEMA", RConst (None, Some (3, 12)));
    ("sqlite3.SQLITE_DBCONFIG_WRITABLE_SCHEMA", RConst (None, Some (3, 12)));
    ("ssl.ALERT_DESCRIPTION_ACCESS_DENIED", RConst (Some (2, 7), Some (3, 4)));
    ("ssl.ALERT_DESCRIPTION_BAD_CERTIFICATE", RConst (Some (2, 7), Some (3, 4)));
    ("ssl.ALERT_DESCRIPTION_BAD_CERTIFICATE_HASH_VALUE", RConst (Some (2, 7), Some (3, 4)));
    ("ssl.ALERT_DESCRIPTION_BAD_CERTIFICATE_STATUS_RESPONSE", RConst (Some (2, 7), Some (3, 4)));
    ("ssl.ALERT_DESCRIPTION_BAD_RECORD_MAC", RConst (Some (2, 7), Some (3, 4)));
    ("ssl.ALERT_DESCRIPTION_CERTIFICATE_EXPIRED", RConst (Some (2, 7), Some (3, 4)));
    ("ssl.ALERT_DESCRIPTION_CERTIFICATE_REVOKED", RConst (Some (2, 7), Some (3, 4)));
    ("ssl.ALERT_DESCRIPTION_CERTIFICATE_UNKNOWN", RConst (Some (2, 7), Some (3, 4)));
    ("ssl.ALERT_DESCRIPTION_CERTIFICATE_UNOBTAINABLE", RConst (Some (2, 7), Some (3, 4)));
    ("ssl.ALERT_DESCRIPTION_CLOSE_NOTIFY", RConst (Some (2, 7), Some (3, 4)));
    ("ssl.ALERT_DESCRIPTION_DECODE_ERROR", RConst (Some (2, 7), Some (3, 4)));
    ("ssl.ALERT_DESCRIPTION_DECOMPRESSION_FAILURE", RConst (Some (2, 7), Some (3, 4)));
    ("ssl.ALERT_DESCRIPTION_DECRYPT_ERROR", RConst (Some (2, 7), Some (3, 4)));
    ("ssl.ALERT_DESCRIPTION_HANDSHAKE_FAILURE", RConst (Some (2, 7), Some (3, 4)));
    ("ssl.ALERT_DESCRIPTION_ILLEGAL_PARAMETER", RConst (Some (2, 7), Some (3, 4)));
    ("ssl.ALERT_DESCRIPTION_INSUFFICIENT_SECURITY", RConst (Some (2, 7), Some (3, 4)));
    ("ssl.ALERT_DESCRIPTION_INTERNAL_ERROR", RConst (Some (2, 7), Some (3, 4)));
    ("ssl.ALERT_DESCRIPTION_NO_RENEGOTIATION", RConst (Some (2, 7), Some (3, 4)));
    ("ssl.ALERT_DESCRIPTION_PROTOCOL_VERSION", RConst (Some (2, 7), Some (3, 4)));
    ("ssl.ALERT_DESCRIPTION_RECORD_OVERFLOW", RConst (Some (2, 7), Some (3, 4)));
    ("ssl.ALERT_DESCRIPTION_UNEXPECTED_MESSAGE", RConst (Some (2, 7), Some (3, 4)));
    ("ssl.ALERT_DESCRIPTION_UNKNOWN_CA", RConst (Some (2, 7), Some (3, 4)));
    ("ssl.ALERT_DESCRIPTION_UNKNOWN_PSK_IDENTITY", RConst (Some (2, 7), Some (3, 4)));
    ("ssl.ALERT_DESCRIPTION_UNRECOGNIZED_NAME", RConst (Some (2, 7), Some (3, 4)));
    ("ssl.ALERT_DESCRIPTION_UNSUPPORTED_CERTIFICATE", RConst (Some (2, 7), Some (3, 4)));
    ("ssl.ALERT_DESCRIPTION_UNSUPPORTED_EXTENSION", RConst (Some (2, 7), Some (3, 4)));
    ("ssl.ALERT_DESCRIPTION_USER_CANCELLED", RConst (Some (2, 7), Some (3, 4)));
    ("ssl.CHANNEL_BINDING_TYPES", RConst (Some (2, 7), Some (3, 3)));
    ("ssl.HAS_ALPN", RConst (Some (2, 7), Some (3, 5)));
    ("ssl.HAS_ECDH", RConst (Some (2, 7), Some (3, 3)));
    ("ssl.HAS_NEVER_CHECK_COMMON_NAME", RConst (None, Some (3, 7)));
    ("ssl.HAS_NPN", RConst (Some (2, 7), Some (3, 3)));
    ("ssl.HAS_SNI", RConst (Some (2, 7), Some (3, 2)));
    ("ssl.HAS_SSLv2", RConst (None, Some (3, 7)));
    ("ssl.HAS_SSLv3", RConst (None, Some (3, 7)));
    ("ssl.HAS_TLSv1", RConst (None, Some (3, 7)));
    ("ssl.HAS_TLSv1_1", RConst (None, Some (3, 7)));
    ("ssl.HAS_TLSv1_2", RConst (None, Some (3, 7)));
    ("ssl.HAS_TLSv1_3", RConst (Some (2, 7), Some (3, 7)));
    ("ssl.OPENSSL_VERSION", RConst (Some (2, 7), Some (3, 2)));
    ("ssl.OPENSSL_VERSION_INFO", RConst (Some (2, 7), Some (3, 2)));
    ("ssl.OPENSSL_VERSION_NUMBER", RConst (Some (2, 7), Some (3, 2)));
    ("ssl.OP_ALL", RConst (Some (2, 7), Some (3, 2)));
    ("ssl.OP_CIPHER_SERVER_PREFERENCE", RConst (Some (2, 7), Some (3, 3)));
    ("ssl.OP_ENABLE_MIDDLEBOX_COMPAT", RConst (Some (2, 7), Some (3, 8)));
    ("ssl.OP_NO_COMPRESSION", RConst (Some (2, 7), Some (3, 3)));
    ("ssl.OP_NO_RENEGOTIATION", RConst (None, Some (3, 7)));
    ("ssl.OP_NO_SSLv2", RConst (Some (2, 7), Some (3, 2)));
    ("ssl.OP_NO_SSLv3", RConst (Some (2, 7), Some (3, 2)));
    ("ssl.OP_NO_TICKET", RConst (None, Some (3, 6)));
    ("ssl.OP_IGNORE_UNEXPECTED_EOF", RConst (None, Some (3, 10)));
    ("ssl.OP_NO_TLSv1", RConst (Some (2, 7), Some (3, 2)));
    ("ssl.OP_NO_TLSv1_1", RConst (Some (2, 7), Some (3, 4)));
    ("ssl.OP_NO_TLSv1_2", RConst (Some (2, 7), Some (3, 4)));
    ("ssl.OP_NO_TLSv1_3", RConst (Some (2, 7), Some (3, 7)));
    ("ssl.OP_SINGLE_DH_USE", RConst (Some (2, 7), Some (3, 3)));
    ("ssl.OP_SINGLE_ECDH_USE", RConst (Some (2, 7), Some (3, 3)));
    ("ssl.PROTOCOL_TLS", RConst (Some (2, 7), Some (3, 6)));
    ("ssl.PROTOCOL_TLS_CLIENT", RConst (None, Some (3, 6)));
    ("ssl.PROTOCOL_TLS_SERVER", RConst (None, Some (3, 6)));
    ("ssl.PROTOCOL_TLSv1_1", RConst (Some (2, 7), Some (3, 4)));
    ("ssl.PROTOCOL_TLSv1_2", RConst (Some (2, 7), Some (3, 4)));
    ("ssl.Purpose.CLIENT_AUTH", RConst (Some (2, 7), Some (3, 4)));
    ("ssl.Purpose.SERVER_AUTH", RConst (Some (2, 7), Some (3, 4)));
    ("ssl.SSLContext.check_hostname", RConst (None, Some (3, 4)));
    ("ssl.SSLContext.security_level", RConst (None, Some (3, 10)));
    ("ssl.SSLContext.hostname_checks_common_name", RConst (None, Some (3, 7)));
    ("ssl.SSLContext.keylog_filename", RConst (None, Some (3, 8)));
    ("ssl.SSLContext.maximum_version", RConst (None, Some (3, 7)));
    ("ssl.SSLContext.minimum_version", RConst (None, Some (3, 7)));
    ("ssl.SSLContext.num_tickets", RConst (None, Some (3, 8)));
    ("ssl.SSLContext.post_handshake_auth", RConst (None, Some (3, 8)));
    ("ssl.SSLContext.sni_callback", RConst (None, Some (3, 7)));
    ("ssl.SSLContext.sslobject_class", RConst (None, Some (3, 7)));
    ("ssl.SSLContext.sslsocket_class", RConst (None, Some (3, 7)));
    ("ssl.SSLContext.verify_flags", RConst (None, Some (3, 4)));
    ("ssl.SSLError.library", RConst (Some (2, 7), Some (3, 3)));
    ("ssl.SSLError.reason", RConst (Some (2, 7), Some (3, 3)));
    ("ssl.SSLSocket.context", RConst (Some (2, 7), Some (3, 2)));
    ("ssl.SSLSocket.server_hostname", RConst (None, Some (3, 2)));
    ("ssl.SSLSocket.server_side", RConst (None, Some (3, 2)));
    ("ssl.SSLSocket.session", RConst (None, Some (3, 6)));
    ("ssl.SSLSocket.session_reused", RConst (None, Some (3, 6)));
    ("ssl.VERIFY_ALLOW_PROXY_CERTS", RConst (None, Some (3, 10)));
    ("ssl.VERIFY_CRL_CHECK_CHAIN", RConst (Some (2, 7), Some (3, 4)));
    ("ssl.VERIFY_CRL_CHECK_LEAF", RConst (Some (2, 7), Some (3, 4)));
    ("ssl.VERIFY_DEFAULT", RConst (Some (2, 7), Some (3, 4)));
    ("ssl.VERIFY_X509_PARTIAL_CHAIN", RConst (None, Some (3, 10)));
    ("ssl.VERIFY_X509_STRICT", RConst (Some (2, 7), Some (3, 4)));
    ("ssl.VERIFY_X509_TRUSTED_FIRST", RConst (Some (2, 7), Some (3, 4)));
    ("stat.FILE_ATTRIBUTE_ARCHIVE", RConst (None, Some (3, 5)));
    ("stat.FILE_ATTRIBUTE_COMPRESSED", RConst (None, Some (3, 5)));
    ("stat.FILE_ATTRIBUTE_DEVICE", RConst (None, Some (3, 5)));
    ("stat.FILE_ATTRIBUTE_DIRECTORY", RConst (None, Some (3, 5)));
    ("stat.FILE_ATTRIBUTE_ENCRYPTED", RConst (None, Some (3, 5)));
    ("stat.FILE_ATTRIBUTE_HIDDEN", RConst (None, Some (3, 5)));
    ("stat.FILE_ATTRIBUTE_INTEGRITY_STREAM", RConst (None, Some (3, 5)));
    ("stat.FILE_ATTRIBUTE_NORMAL", RConst (None, Some (3, 5)));
    ("stat.FILE_ATTRIBUTE_NOT_CONTENT_INDEXED", RConst (None, Some (3, 5)));
    ("stat.FILE_ATTRIBUTE_NO_SCRUB_DATA", RConst (None, Some (3, 5)));
    ("stat.FILE_ATTRIBUTE_OFFLINE", RConst (None, Some (3, 5)));
    ("stat.FILE_ATTRIBUTE_READONLY", RConst (None, Some (3, 5)));
    ("stat.FILE_ATTRIBUTE_REPARSE_POINT", RConst (None, Some (3, 5)));
    ("stat.FILE_ATTRIBUTE_SPARSE_FILE", RConst (None, Some (3, 5)));
    ("stat.FILE_ATTRIBUTE_SYSTEM", RConst (None, Some (3, 5)));
    ("stat.FILE_ATTRIBUTE_TEMPORARY", RConst (None, Some (3, 5)));
    ("stat.FILE_ATTRIBUTE_VIRTUAL", RConst (None, Some (3, 5)));
    ("stat.IO_REPARSE_TAG_APPEXECLINK", RConst (None, Some (3, 8)));
    ("stat.IO_REPARSE_TAG_MOUNT_POINT", RConst (None, Some (3, 8)));
    ("stat.IO_REPARSE_TAG_SYMLINK", RConst (None, Some (3, 8)));
    ("stat.S_IFDOOR", RConst (None, Some (3, 4)));
    ("stat.S_IFPORT", RConst (None, Some (3, 4)));
    ("stat.S_IFWHT", RConst (None, Some (3, 4)));
    ("staticmethod.__wrapped__", RConst (None, Some (3, 10)));
    ("string.Template.braceidpattern", RConst (None, Some (3, 7)));
    ("string.Template.flags", RConst (None, Some (3, 2)));
    ("string.letters", RConst (Some (2, 0), None));
    ("string.lowercase", RConst (Some (2, 0), None));
    ("string.uppercase", RConst (Some (2, 0), None));
    ("subprocess.ABOVE_NORMAL_PRIORITY_CLASS", RConst (None, Some (3, 7)));
    ("subprocess.BELOW_NORMAL_PRIORITY_CLASS", RConst (None, Some (3, 7)));
    ("subprocess.CREATE_BREAKAWAY_FROM_JOB", RConst (None, Some (3, 7)));
    ("subprocess.CREATE_DEFAULT_ERROR_MODE", RConst (None, Some (3, 7)));
    ("subprocess.CREATE_NO_WINDOW", RConst (None, Some (3, 7)));
    ("subprocess.CalledProcessError.stderr", RConst (None, Some (3, 5)));
    ("subprocess.CalledProcessError.stdout", RConst (None, Some (3, 5)));
    ("subprocess.DETACHED_PROCESS", RConst (None, Some (3, 7)));
    ("subprocess.DEVNULL", RConst (None, Some (3, 3)));
    ("subprocess.HIGH_PRIORITY_CLASS", RConst (None, Some (3, 7)));
    ("subprocess.IDLE_PRIORITY_CLASS", RConst (None, Some (3, 7)));
    ("subprocess.NORMAL_PRIORITY_CLASS", RConst (None, Some (3, 7)));
    ("subprocess.Popen.args", RConst (None, Some (3, 3)));
    ("subprocess.REALTIME_PRIORITY_CLASS", RConst (None, Some (3, 7)));
    ("subprocess.STARTUPINFO.lpAttributeList", RConst (None, Some (3, 7)));
    ("subprocess.TimeoutExpired.stderr", RConst (None, Some (3, 5)));
    ("subprocess.TimeoutExpired.stdout", RConst (None, Some (3, 5)));
    ("sys.__breakpointhook__", RConst (None, Some (3, 7)));
    ("sys.__interactivehook__", RConst (None, Some (3, 4)));
    ("sys.__unraisablehook__", RConst (None, Some (3, 8)));
    ("sys._emscripten_info", RConst (None, Some (3, 11)));
    ("sys._xoptions", RConst (None, Some (3, 2)));
    ("sys.abiflags", RConst (None, Some (3, 2)));
    ("sys.activate_stack_trampoline", RConst (None, Some (3, 12)));
    ("sys.api_version", RConst (Some (2, 3), Some (3, 0)));
    ("sys.base_exec_prefix", RConst (None, Some (3, 3)));
    ("sys.base_prefix", RConst (None, Some (3, 3)));
    ("sys.deactivate_stack_trampoline", RConst (None, Some (3, 12)));
    ("sys.dont_write_bytecode", RConst (Some (2, 6), Some (3, 0)));
    ("sys.flags", RConst (Some (2, 6), Some (3, 0)));
    ("sys.flags.dev_mode", RConst (None, Some (3, 7)));
    ("sys.flags.hash_randomization", RConst (Some (2, 7), Some (3, 2)));
    ("sys.flags.isolated", RConst (None, Some (3, 4)));
    ("sys.flags.quiet", RConst (None, Some (3, 2))) ].
Definition mod_mem_reqs_x_12 : list (string * reqx) :=
  [ ("sys.flags.utf8_mode", RConst (None, Some (3, 7)));
    ("sys.float_info", RConst (Some (2, 6), Some (3, 0)));
    ("sys.float_repr_style", RConst (Some (2, 7), Some (3, 1)));
    ("sys.getunicodeinternedsize", RConst (None, Some (3, 12)));
    ("sys.getwindowsversion.build", RConst (Some (2, 7), Some (3, 0)));
    ("sys.getwindowsversion.major", RConst (Some (2, 7), Some (3, 0)));
    ("sys.getwindowsversion.minor", RConst (Some (2, 7), Some (3, 0)));
    ("sys.getwindowsversion.platform", RConst (Some (2, 7), Some (3, 0)));
    ("sys.getwindowsversion.product_type", RConst (Some (2, 7), Some (3, 0)));
    ("sys.getwindowsversion.service_pack", RConst (Some (2, 7), Some (3, 0)));
    ("sys.getwindowsversion.service_pack_major", RConst (Some (2, 7), Some (3, 0)));
    ("sys.getwindowsversion.service_pack_minor", RConst (Some (2, 7), Some (3, 0)));
    ("sys.getwindowsversion.suite_mask", RConst (Some (2, 7), Some (3, 0)));
    ("sys.hash_info", RConst (None, Some (3, 2)));
    ("sys.hash_info.algorithm", RConst (None, Some (3, 4)));
    ("sys.hash_info.hash_bits", RConst (None, Some (3, 4)));
    ("sys.hash_info.seed_bits", RConst (None, Some (3, 4)));
    ("sys.implementation", RConst (None, Some (3, 3)));
    ("sys.int_info", RConst (None, Some (3, 1)));
    ("sys.is_stack_trampoline_active", RConst (None, Some (3, 12)));
    ("sys.last_exc", RConst (None, Some (3, 12)));
    ("sys.long_info", RConst (Some (2, 7), None));
    ("sys.orig_argv", RConst (None, Some (3, 10)));
    ("sys.platlibdir", RConst (None, Some (3, 9)));
    ("sys.py3kwarning", RConst (Some (2, 6), None));
    ("sys.pycache_prefix", RConst (None, Some (3, 8)));
    ("sys.stdlib_module_names", RConst (None, Some (3, 10)));
    ("sys.subversion", RConst (Some (2, 5), Some (3, 0)));
    ("sys.thread_info", RConst (None, Some (3, 3)));
    ("sys.version_info", RConst (Some (2, 0), Some (3, 0)));
    ("sys.version_info.major", RConst (Some (2, 7), Some (3, 0)));
    ("sys.version_info.micro", RConst (Some (2, 7), Some (3, 0)));
    ("sys.version_info.minor", RConst (Some (2, 7), Some (3, 0)));
    ("sys.version_info.releaselevel", RConst (Some (2, 7), Some (3, 0)));
    ("tarfile.DEFAULT_FORMAT", RConst (Some (2, 6), Some (3, 0)));
    ("tarfile.GNU_FORMAT", RConst (Some (2, 6), Some (3, 0)));
    ("tarfile.PAX_FORMAT", RConst (Some (2, 6), Some (3, 0)));
    ("tarfile.TarFile.extraction_filter", RConst (None, Some (3, 12)));
    ("tarfile.TarFile.pax_headers", RConst (Some (2, 6), Some (3, 0)));
    ("tarfile.TarInfo.pax_headers", RConst (Some (2, 6), Some (3, 0)));
    ("tarfile.USTAR_FORMAT", RConst (Some (2, 6), Some (3, 0)));
    ("textwrap.TextWrapper.break_on_hyphens", RConst (Some (2, 6), Some (3, 0)));
    ("textwrap.TextWrapper.drop_whitespace", RConst (Some (2, 6), Some (3, 0)));
    ("textwrap.TextWrapper.max_lines", RConst (None, Some (3, 4)));
    ("textwrap.TextWrapper.placeholder", RConst (None, Some (3, 4)));
    ("textwrap.TextWrapper.tabsize", RConst (None, Some (3, 3)));
    ("threading.TIMEOUT_MAX", RConst (None, Some (3, 2)));
    ("threading.Thread.daemon", RConst (Some (2, 6), Some (3, 0)));
    ("threading.Thread.ident", RConst (Some (2, 6), Some (3, 0)));
    ("threading.Thread.name", RConst (Some (2, 6), Some (3, 0)));
    ("threading.Thread.native_id", RConst (None, Some (3, 8)));
    ("threading.__excepthook__", RConst (None, Some (3, 10)));
    ("time.CLOCK_BOOTTIME", RConst (None, Some (3, 7)));
    ("time.CLOCK_HIGHRES", RConst (None, Some (3, 3)));
    ("time.CLOCK_MONOTONIC", RConst (None, Some (3, 3)));
    ("time.CLOCK_MONOTONIC_RAW", RConst (None, Some (3, 3)));
    ("time.CLOCK_PROCESS_CPUTIME_ID", RConst (None, Some (3, 3)));
    ("time.CLOCK_PROF", RConst (None, Some (3, 7)));
    ("time.CLOCK_REALTIME", RConst (None, Some (3, 3)));
    ("time.CLOCK_TAI", RConst (None, Some (3, 9)));
    ("time.CLOCK_THREAD_CPUTIME_ID", RConst (None, Some (3, 3)));
    ("time.CLOCK_UPTIME", RConst (None, Some (3, 7)));
    ("time.CLOCK_UPTIME_RAW", RConst (None, Some (3, 8)));
    ("time.struct_time.tm_gmtoff", RConst (None, Some (3, 3)));
    ("time.struct_time.tm_zone", RConst (None, Some (3, 3)));
    ("token.ASYNC", RConst (None, Some (3, 5)));
    ("token.AWAIT", RConst (None, Some (3, 5)));
    ("token.COLONEQUAL", RConst (None, Some (3, 8)));
    ("token.COMMENT", RConst (None, Some (3, 7)));
    ("token.ENCODING", RConst (None, Some (3, 7)));
    ("token.NL", RConst (None, Some (3, 7)));
    ("token.TYPE_COMMENT", RConst (None, Some (3, 8)));
    ("token.TYPE_IGNORE", RConst (None, Some (3, 8)));
    ("traceback.TracebackException.__notes__", RConst (None, Some (3, 11)));
    ("tracemalloc.Filter.domain", RConst (None, Some (3, 6)));
    ("tracemalloc.Trace.domain", RConst (None, Some (3, 6)));
    ("tracemalloc.Traceback.total_nframe", RConst (None, Some (3, 9)));
    ("types.AsyncGeneratorType", RConst (None, Some (3, 6)));
    ("types.BooleanType", RConst (Some (2, 3), None));
    ("types.CellType", RConst (None, Some (3, 8)));
    ("types.ClassMethodDescriptorType", RConst (None, Some (3, 7)));
    ("types.CoroutineType", RConst (None, Some (3, 5)));
    ("types.EllipsisType", RConst (Some (2, 0), Some (3, 10)));
    ("types.GeneratorType", RConst (Some (2, 2), Some (3, 0)));
    ("types.GetSetDescriptorType", RConst (Some (2, 5), Some (3, 0)));
    ("types.MemberDescriptorType", RConst (Some (2, 5), Some (3, 0)));
    ("types.MethodDescriptorType", RConst (None, Some (3, 7)));
    ("types.MethodWrapperType", RConst (None, Some (3, 7)));
    ("types.ModuleType.__spec__", RConst (None, Some (3, 4)));
    ("types.NoneType", RConst (Some (2, 0), Some (3, 10)));
    ("types.NotImplementedType", RConst (Some (2, 5), Some (3, 10)));
    ("types.StringTypes", RConst (Some (2, 2), None));
    ("types.UnionType", RConst (None, Some (3, 10)));
    ("types.WrapperDescriptorType", RConst (None, Some (3, 7)));
    ("typing.Annotated", RConst (None, Some (3, 9)));
    ("typing.Concatenate", RConst (None, Some (3, 10)));
    ("typing.NoReturn", RIfNot "typing" (RConst (None, Some (3, 5))) (RConst (Some (2, 7), Some (3, 3))));
    ("typing.Final", RIfNot "typing" (RConst (None, Some (3, 8))) (RConst (Some (2, 7), Some (3, 8))));
    ("typing.Literal", RIfNot "typing" (RConst (None, Some (3, 8))) (RConst (Some (2, 7), Some (3, 8))));
    ("typing.ParamSpecArgs", RConst (None, Some (3, 10)));
    ("typing.ParamSpecKwargs", RConst (None, Some (3, 10)));
    ("typing.TypeAlias", RConst (None, Some (3, 10)));
    ("typing.TypeGuard", RConst (None, Some (3, 10)));
    ("typing.LiteralString", RConst (None, Some (3, 11)));
    ("typing.Never", RConst (None, Some (3, 11)));
    ("typing.Self", RConst (None, Some (3, 11)));
    ("typing.TypeVarTuple", RConst (None, Some (3, 11)));
    ("typing.Unpack", RConst (None, Some (3, 11)));
    ("typing.Required", RConst (None, Some (3, 11)));
    ("typing.NotRequired", RConst (None, Some (3, 11)));
    ("unicodedata.ucd_3_2_0", RConst (Some (2, 5), Some (3, 0)));
    ("unicodedata.unidata_version", RConst (Some (2, 3), Some (3, 0)));
    ("unittest.TestCase.longMessage", RConst (Some (2, 7), Some (3, 1)));
    ("unittest.TestCase.maxDiff", RConst (Some (2, 7), Some (3, 2)));
    ("unittest.TestLoader.errors", RConst (None, Some (3, 5)));
    ("unittest.TestLoader.testNamePatterns", RConst (None, Some (3, 7)));
    ("unittest.TestResult.buffer", RConst (Some (2, 7), Some (3, 2)));
    ("unittest.TestResult.failfast", RConst (Some (2, 7), Some (3, 2)));
    ("unittest.TestResult.skipped", RConst (Some (2, 7), Some (3, 1)));
    ("unittest.TestResult.tb_locals", RConst (None, Some (3, 5)));
    ("unittest.mock.Mock.call_args.args", RBpv "mock" (None, Some (3, 8)));
    ("unittest.mock.Mock.call_args.kwargs", RBpv "mock" (None, Some (3, 8)));
    ("urllib.error.HTTPError.headers", RConst (None, Some (3, 4)));
    ("urllib.parse._UNSAFE_URL_BYTES_TO_REMOVE", RConst (None, Some (3, 10)));
    ("urllib.request.Request.method", RConst (None, Some (3, 3)));
    ("urllib.response.addinfourl.status", RConst (None, Some (3, 9)));
    ("urlparse.urlparse.fragment", RConst (Some (2, 5), None));
    ("urlparse.urlparse.hostname", RConst (Some (2, 5), None));
    ("urlparse.urlparse.netloc", RConst (Some (2, 5), None));
    ("urlparse.urlparse.params", RConst (Some (2, 5), None));
    ("urlparse.urlparse.password", RConst (Some (2, 5), None));
    ("urlparse.urlparse.path", RConst (Some (2, 5), None));
    ("urlparse.urlparse.port", RConst (Some (2, 5), None));
    ("urlparse.urlparse.query", RConst (Some (2, 5), None));
    ("urlparse.urlparse.scheme", RConst (Some (2, 5), None));
    ("urlparse.urlparse.username", RConst (Some (2, 5), None));
    ("urlparse.urlsplit.fragment", RConst (Some (2, 5), None));
    ("urlparse.urlsplit.hostname", RConst (Some (2, 5), None));
    ("urlparse.urlsplit.netloc", RConst (Some (2, 5), None));
    ("urlparse.urlsplit.password", RConst (Some (2, 5), None));
    ("urlparse.urlsplit.path", RConst (Some (2, 5), None));
    ("urlparse.urlsplit.port", RConst (Some (2, 5), None));
    ("urlparse.urlsplit.query", RConst (Some (2, 5), None));
    ("urlparse.urlsplit.scheme", RConst (Some (2, 5), None));
    ("urlparse.urlsplit.username", RConst (Some (2, 5), None));
    ("uuid.UUID.is_safe", RConst (None, Some (3, 7)));
    ("weakref.ref.__callback__", RConst (None, Some (3, 4)));
    ("winreg.REG_QWORD", RConst (None, Some (3, 6)));
    ("winreg.REG_QWORD_LITTLE_ENDIAN", RConst (None, Some (3, 6)));
    ("xml.dom.DOMSTRING_SIZE_ERR", RConst (Some (2, 1), Some (3, 0)));
    ("xml.dom.EMPTY_NAMESPACE", RConst (Some (2, 2), Some (3, 0)));
    ("xml.dom.HIERARCHY_REQUEST_ERR", RConst (Some (2, 1), Some (3, 0)));
    ("xml.dom.INDEX_SIZE_ERR", RConst (Some (2, 1), Some (3, 0)));
    ("xml.dom.INUSE_ATTRIBUTE_ERR", RConst (Some (2, 1), Some (3, 0)));
    ("xml.dom.INVALID_ACCESS_ERR", RConst (Some (2, 1), Some (3, 0)));
    ("xml.dom.INVALID_CHARACTER_ERR", RConst (Some (2, 1), Some (3, 0)));
    ("xml.dom.INVALID_MODIFICATION_ERR", RConst (Some (2, 1), Some (3, 0)));
    ("xml.dom.INVALID_STATE_ERR", RConst (Some (2, 1), Some (3, 0)));
    ("xml.dom.NAMESPACE_ERR", RConst (Some (2, 1), Some (3, 0)));
    ("xml.dom.NOT_FOUND_ERR", RConst (Some (2, 1), Some (3, 0)));
    ("xml.dom.NOT_SUPPORTED_ERR", RConst (Some (2, 1), Some (3, 0)));
    ("xml.dom.NO_DATA_ALLOWED_ERR", RConst (Some (2, 1), Some (3, 0)));
    ("xml.dom.NO_MODIFICATION_ALLOWED_ERR", RConst (Some (2, 1), Some (3, 0)));
    ("xml.dom.SYNTAX_ERR", RConst (Some (2, 1), Some (3, 0)));
    ("xml.dom.WRONG_DOCUMENT_ERR", RConst (Some (2, 1), Some (3, 0)));
    ("xml.dom.XHTML_NAMESPACE", RConst (Some (2, 2), Some (3, 0)));
    ("xml.dom.XMLNS_NAMESPACE", RConst (Some (2, 2), Some (3, 0)));
    ("xml.dom.XML_NAMESPACE", RConst (Some (2, 2), Some (3, 0)));
    ("xml.parsers.expat.ExpatError.code", RConst (Some (2, 1), Some (3, 0)));
    ("xml.parsers.expat.ExpatError.lineno", RConst (Some (2, 1), Some (3, 0)));
    ("xml.parsers.expat.ExpatError.offset", RConst (Some (2, 1), Some (3, 0)));
    ("xml.parsers.expat.XMLParserType.CurrentByteIndex", RConst (Some (2, 4), Some (3, 0)));
    ("xml.parsers.expat.XMLParserType.CurrentColumnNumber", RConst (Some (2, 4), Some (3, 0)));
    ("xml.parsers.expat.XMLParserType.CurrentLineNumber", RConst (Some (2, 4), Some (3, 0)));
    ("xml.parsers.expat.XMLParserType.buffer_size", RConst (Some (2, 3), Some (3, 0)));
    ("xml.parsers.expat.XMLParserType.buffer_text", RConst (Some (2, 3), Some (3, 0)));
    ("xml.parsers.expat.XMLParserType.buffer_used", RConst (Some (2, 3), Some (3, 0)));
    ("xml.parsers.expat.XMLParserType.ordered_attributes", RConst (Some (2, 1), Some (3, 0)));
    ("xml.parsers.expat.XMLParserType.returns_unicode", RConst (Some (2, 0), None));
    ("xml.parsers.expat.XMLParserType.specified_attributes", RConst (Some (2, 1), Some (3, 0)));
    ("xml.parsers.expat.errors.codes", RConst (None, Some (3, 2)));
    ("xml.parsers.expat.errors.messages", RConst (None, Some (3, 2)));
    ("xmlrpc.server.SimpleXMLRPCRequestHandler.rpc_paths", RConst (None, Some (3, 0)));
    ("zipfile.Path.stem", RConst (None, Some (3, 11)));
    ("zipfile.Path.suffix", RConst (None, Some (3, 11)));
    ("zipfile.Path.suffixes", RConst (None, Some (3, 11)));
    ("zipfile.ZIP_BZIP2", RConst (None, Some (3, 3)));
    ("zipfile.ZIP_LZMA", RConst (None, Some (3, 3)));
    ("zlib.Decompress.eof", RConst (None, Some (3, 3)));
    ("zlib.ZLIB_RUNTIME_VERSION", RConst (None, Some (3, 3)));
    ("abc.abstractclassmethod", RConst (None, Some (3, 2)));
    ("abc.abstractstaticmethod", RConst (None, Some (3, 2)));
    ("contextlib.asynccontextmanager", RConst (None, Some (3, 7)));
    ("enum.global_enum", RConst (None, Some (3, 11)));
    ("enum.member", RConst (None, Some (3, 11)));
    ("enum.nonmember", RConst (None, Some (3, 11)));
    ("enum.property", RConst (None, Some (3, 11)));
    ("enum.verify", RConst (None, Some (3, 11)));
    ("functools.cache", RConst (None, Some (3, 9)));
    ("functools.cached_property", RConst (None, Some (3, 8))) ].
Definition mod_mem_reqs_x_13 : list (string * reqx) :=
  [ ("functools.lru_cache", RConst (None, Some (3, 2)));
    ("functools.partial_method", RConst (None, Some (3, 4)));
    ("functools.singledispatch", RConst (None, Some (3, 4)));
    ("functools.singledispatchmethod", RConst (None, Some (3, 8)));
    ("functools.total_ordering", RConst (Some (2, 7), Some (3, 2)));
    ("reprlib.recursive_repr", RConst (None, Some (3, 2)));
    ("typing.dataclass_transform", RConst (None, Some (3, 11)));
    ("typing.final", RIfNot "typing" (RConst (None, Some (3, 8))) (RConst (Some (2, 7), Some (3, 8))));
    ("typing.override", RConst (None, Some (3, 12)));
    ("typing.runtime_checkable", RIfNot "typing" (RConst (None, Some (3, 8))) (RConst (Some (2, 7), Some (3, 8))));
    ("unittest.expectedFailure", RConst (Some (2, 7), Some (3, 1)));
    ("unittest.skip", RConst (Some (2, 7), Some (3, 1)));
    ("unittest.skipIf", RConst (Some (2, 7), Some (3, 1)));
    ("unittest.skipUnless", RConst (Some (2, 7), Some (3, 1))) ].
(** rules.py:199-2852 [MOD_MEM_REQS], all chunks in order. *)
Definition mod_mem_reqs_x : list (string * reqx) :=
  mod_mem_reqs_x_0 ++ mod_mem_reqs_x_1 ++ mod_mem_reqs_x_2 ++ mod_mem_reqs_x_3 ++ mod_mem_reqs_x_4 ++ mod_mem_reqs_x_5 ++ mod_mem_reqs_x_6 ++ mod_mem_reqs_x_7 ++ mod_mem_reqs_x_8 ++ mod_mem_reqs_x_9 ++ mod_mem_reqs_x_10 ++ mod_mem_reqs_x_11 ++ mod_mem_reqs_x_12 ++ mod_mem_reqs_x_13.

(** rules.py:2858-3754 [KWARGS_REQS]. *)
Definition kwargs_reqs_x_0 : list ((string * string) * reqx) :=
  [ (("BaseHTTPServer.BaseHTTPRequestHandler.date_time_string", "timestamp"), RConst (Some (2, 5), None));
    (("ConfigParser.ConfigParser", "allow_no_value"), RConst (Some (2, 6), None));
    (("ConfigParser.ConfigParser", "dict_type"), RConst (Some (2, 6), None));
    (("ConfigParser.RawConfigParser", "allow_no_value"), RConst (Some (2, 6), None));
    (("ConfigParser.RawConfigParser", "dict_type"), RConst (Some (2, 6), None));
    (("ConfigParser.SafeConfigParser", "allow_no_value"), RConst (Some (2, 6), None));
    (("ConfigParser.SafeConfigParser", "dict_type"), RConst (Some (2, 6), None));
    (("ImportError", "name"), RConst (None, Some (3, 3)));
    (("ImportError", "path"), RConst (None, Some (3, 3)));
    (("OSError", "filename2"), RConst (None, Some (3, 4)));
    (("Queue.Queue.get", "timeout"), RConst (Some (2, 3), None));
    (("Queue.Queue.put", "timeout"), RConst (Some (2, 3), None));
    (("SimpleXMLRPCServer.CGIXMLRPCRequestHandler", "allow_none"), RConst (Some (2, 5), None));
    (("SimpleXMLRPCServer.CGIXMLRPCRequestHandler", "encoding"), RConst (Some (2, 5), None));
    (("SimpleXMLRPCServer.SimpleXMLRPCServer", "allow_none"), RConst (Some (2, 5), None));
    (("SimpleXMLRPCServer.SimpleXMLRPCServer", "bind_and_activate"), RConst (Some (2, 6), None));
    (("SimpleXMLRPCServer.SimpleXMLRPCServer", "encoding"), RConst (Some (2, 5), None));
    (("SimpleXMLRPCServer.SimpleXMLRPCServer.register_instance", "allow_dotted_names"), RConst (Some (2, 3), None));
    (("Tkinter.Tk", "useTk"), RConst (Some (2, 4), None));
    (("__import__", "level"), RConst (Some (2, 5), Some (3, 0)));
    (("_thread.lock.acquire", "timeout"), RConst (None, Some (3, 2)));
    (("_thread.interrupt_main", "signum"), RConst (None, Some (3, 10)));
    (("argparse.ArgumentParser", "allow_abbrev"), RConst (None, Some (3, 5)));
    (("argparse.ArgumentParser", "exit_on_error"), RConst (None, Some (3, 9)));
    (("argparse.ArgumentParser.add_subparsers", "required"), RConst (None, Some (3, 7)));
    (("argparse.FileType", "encodings"), RConst (None, Some (3, 4)));
    (("argparse.FileType", "errors"), RConst (None, Some (3, 4)));
    (("array.array.index", "start"), RConst (None, Some (3, 10)));
    (("array.array.index", "stop"), RConst (None, Some (3, 10)));
    (("ast.dump", "indent"), RConst (None, Some (3, 9)));
    (("ast.parse", "feature_version"), RConst (None, Some (3, 8)));
    (("ast.parse", "type_comments"), RConst (None, Some (3, 8)));
    (("asyncio.Future.add_done_callback", "context"), RConst (None, Some (3, 7)));
    (("asyncio.Future.cancel", "msg"), RConst (None, Some (3, 9)));
    (("asyncio.Task", "context"), RConst (None, Some (3, 11)));
    (("asyncio.Task", "eager_start"), RConst (None, Some (3, 12)));
    (("asyncio.Task", "name"), RConst (None, Some (3, 8)));
    (("asyncio.Task.cancel", "msg"), RConst (None, Some (3, 9)));
    (("asyncio.create_task", "context"), RConst (None, Some (3, 11)));
    (("asyncio.create_task", "name"), RConst (None, Some (3, 8)));
    (("asyncio.loop.call_at", "context"), RConst (None, Some (3, 7)));
    (("asyncio.loop.call_later", "context"), RConst (None, Some (3, 7)));
    (("asyncio.loop.call_soon", "context"), RConst (None, Some (3, 7)));
    (("asyncio.loop.call_soon_threadsafe", "context"), RConst (None, Some (3, 7)));
    (("asyncio.loop.connect_accepted_socket", "ssl_handshake_timeout"), RConst (None, Some (3, 7)));
    (("asyncio.loop.connect_accepted_socket", "ssl_shutdown_timeout"), RConst (None, Some (3, 11)));
    (("asyncio.loop.create_connection", "happy_eyeballs_delay"), RConst (None, Some (3, 8)));
    (("asyncio.loop.create_connection", "interleave"), RConst (None, Some (3, 8)));
    (("asyncio.loop.create_connection", "ssl_handshake_timeout"), RConst (None, Some (3, 7)));
    (("asyncio.loop.create_connection", "ssl_shutdown_timeout"), RConst (None, Some (3, 11)));
    (("asyncio.loop.create_datagram_endpoint", "allow_broadcast"), RConst (None, Some (3, 4)));
    (("asyncio.loop.create_datagram_endpoint", "family"), RConst (None, Some (3, 4)));
    (("asyncio.loop.create_datagram_endpoint", "flags"), RConst (None, Some (3, 4)));
    (("asyncio.loop.create_datagram_endpoint", "proto"), RConst (None, Some (3, 4)));
    (("asyncio.loop.create_datagram_endpoint", "reuse_address"), RConst (None, Some (3, 4)));
    (("asyncio.loop.create_datagram_endpoint", "reuse_port"), RConst (None, Some (3, 4)));
    (("asyncio.loop.create_datagram_endpoint", "sock"), RConst (None, Some (3, 4)));
    (("asyncio.loop.create_server", "ssl_handshake_timeout"), RConst (None, Some (3, 6)));
    (("asyncio.loop.create_server", "ssl_shutdown_timeout"), RConst (None, Some (3, 11)));
    (("asyncio.loop.create_server", "start_serving"), RConst (None, Some (3, 6)));
    (("asyncio.loop.create_task", "context"), RConst (None, Some (3, 11)));
    (("asyncio.loop.create_task", "name"), RConst (None, Some (3, 8)));
    (("asyncio.loop.create_unix_connection", "path"), RConst (None, Some (3, 7)));
    (("asyncio.loop.create_unix_connection", "ssl_handshake_timeout"), RConst (None, Some (3, 7)));
    (("asyncio.loop.create_unix_connection", "ssl_shutdown_timeout"), RConst (None, Some (3, 11)));
    (("asyncio.loop.create_unix_server", "path"), RConst (None, Some (3, 7)));
    (("asyncio.loop.create_unix_server", "ssl_handshake_timeout"), RConst (None, Some (3, 7)));
    (("asyncio.loop.create_unix_server", "ssl_shutdown_timeout"), RConst (None, Some (3, 11)));
    (("asyncio.loop.create_unix_server", "start_serving"), RConst (None, Some (3, 7)));
    (("asyncio.loop.start_tls", "ssl_shutdown_timeout"), RConst (None, Some (3, 11)));
    (("asyncio.open_connection", "ssl_handshake_timeout"), RConst (None, Some (3, 7)));
    (("asyncio.open_unix_connection", "path"), RConst (None, Some (3, 7)));
    (("asyncio.open_unix_connection", "ssl_handshake_timeout"), RConst (None, Some (3, 7)));
    (("asyncio.run", "loop_factory"), RConst (None, Some (3, 12)));
    (("asyncio.start_server", "ssl_handshake_timeout"), RConst (None, Some (3, 7)));
    (("asyncio.start_server", "start_serving"), RConst (None, Some (3, 7)));
    (("asyncio.start_unix_server", "path"), RConst (None, Some (3, 7)));
    (("asyncio.start_unix_server", "ssl_handshake_timeout"), RConst (None, Some (3, 7)));
    (("asyncio.start_unix_server", "start_serving"), RConst (None, Some (3, 7)));
    (("bdb.Bdb", "skip"), RConst (Some (2, 7), Some (3, 1)));
    (("binascii.a2b_base64", "strict_mode"), RConst (None, Some (3, 11)));
    (("binascii.b2a_base64", "newline"), RConst (None, Some (3, 6)));
    (("binascii.b2a_hex", "bytes_per_sep"), RConst (None, Some (3, 8)));
    (("binascii.b2a_hex", "sep"), RConst (None, Some (3, 8)));
    (("binascii.b2a_uu", "backtick"), RConst (None, Some (3, 7)));
    (("binascii.hexlify", "bytes_per_sep"), RConst (None, Some (3, 8)));
    (("binascii.hexlify", "sep"), RConst (None, Some (3, 8)));
    (("bisect.bisect", "key"), RConst (None, Some (3, 10)));
    (("bisect.bisect_left", "key"), RConst (None, Some (3, 10)));
    (("bisect.bisect_right", "key"), RConst (None, Some (3, 10)));
    (("bisect.insort", "key"), RConst (None, Some (3, 10)));
    (("bisect.insort_left", "key"), RConst (None, Some (3, 10)));
    (("bisect.insort_right", "key"), RConst (None, Some (3, 10)));
    (("bytearray.decode", "encoding"), RConst (None, Some (3, 2)));
    (("bytearray.decode", "errors"), RConst (None, Some (3, 2)));
    (("bytearray.hex", "bytes_per_sep"), RConst (None, Some (3, 8)));
    (("bytearray.hex", "sep"), RConst (None, Some (3, 8)));
    (("bytearray.translate", "delete"), RConst (None, Some (3, 6)));
    (("bytes.decode", "encoding"), RConst (None, Some (3, 2)));
    (("bytes.decode", "errors"), RConst (None, Some (3, 2)));
    (("bytes.hex", "bytes_per_sep"), RConst (None, Some (3, 8)));
    (("bytes.hex", "sep"), RConst (None, Some (3, 8)));
    (("bytes.translate", "delete"), RConst (None, Some (3, 6)));
    (("bz2.BZ2Decompressor.decompress", "max_length"), RConst (None, Some (3, 5)));
    (("cgi.parse", "separator"), RConst (None, Some (3, 6)));
    (("cgi.parse_multipart", "encoding"), RConst (None, Some (3, 7)));
    (("cgi.parse_multipart", "errors"), RConst (None, Some (3, 7)));
    (("cgi.parse_multipart", "separator"), RConst (None, Some (3, 6)));
    (("cgi.parse_qs", "max_num_fields"), RConst (Some (2, 7), None));
    (("cgi.parse_qsl", "max_num_fields"), RConst (Some (2, 7), None));
    (("cmath.log", "base"), RConst (Some (2, 4), Some (3, 0)));
    (("cmd.Cmd", "stdin"), RConst (Some (2, 3), Some (3, 0)));
    (("cmd.Cmd", "stdout"), RConst (Some (2, 3), Some (3, 0)));
    (("code.interact", "exitmsg"), RConst (None, Some (3, 6)));
    (("codecs.StreamReader.read", "chars"), RConst (Some (2, 4), Some (3, 0)));
    (("codecs.StreamReader.read", "firstline"), RConst (Some (2, 4), Some (3, 0)));
    (("codecs.StreamReader.readline", "keepends"), RConst (Some (2, 4), Some (3, 0)));
    (("collections.ChainMap.new_child", "m"), RConst (None, Some (3, 4)));
    (("collections.abc.ByteString.index", "start"), RConst (None, Some (3, 5)));
    (("collections.abc.ByteString.index", "stop"), RConst (None, Some (3, 5)));
    (("collections.abc.MutableSequence.index", "start"), RConst (None, Some (3, 5)));
    (("collections.abc.MutableSequence.index", "stop"), RConst (None, Some (3, 5)));
    (("collections.abc.Sequence.index", "start"), RConst (None, Some (3, 5)));
    (("collections.abc.Sequence.index", "stop"), RConst (None, Some (3, 5)));
    (("collections.deque", "maxlen"), RConst (Some (2, 6), Some (3, 0)));
    (("collections.namedtuple", "defaults"), RConst (None, Some (3, 7)));
    (("collections.namedtuple", "module"), RConst (None, Some (3, 6)));
    (("collections.namedtuple", "rename"), RConst (Some (2, 7), Some (3, 1)));
    (("compile", "dont_inherit"), RConst (Some (2, 3), Some (3, 0)));
    (("compile", "flags"), RConst (Some (2, 3), Some (3, 0)));
    (("compile", "optimize"), RConst (None, Some (3, 2)));
    (("compileall.compile_dir", "hardlink_dupes"), RConst (None, Some (3, 9)));
    (("compileall.compile_dir", "invalidation_mode"), RConst (None, Some (3, 7)));
    (("compileall.compile_dir", "legacy"), RConst (None, Some (3, 2)));
    (("compileall.compile_dir", "limit_sl_dest"), RConst (None, Some (3, 9)));
    (("compileall.compile_dir", "optimize"), RConst (None, Some (3, 2)));
    (("compileall.compile_dir", "prependdir"), RConst (None, Some (3, 9)));
    (("compileall.compile_dir", "stripdir"), RConst (None, Some (3, 9)));
    (("compileall.compile_dir", "workers"), RConst (None, Some (3, 5)));
    (("compileall.compile_file", "hardlink_dupes"), RConst (None, Some (3, 9)));
    (("compileall.compile_file", "invalidation_mode"), RConst (None, Some (3, 7)));
    (("compileall.compile_file", "limit_sl_dest"), RConst (None, Some (3, 9)));
    (("compileall.compile_file", "prependdir"), RConst (None, Some (3, 9)));
    (("compileall.compile_file", "stripdir"), RConst (None, Some (3, 9)));
    (("compileall.compile_path", "invalidation_mode"), RConst (None, Some (3, 7)));
    (("compileall.compile_path", "legacy"), RConst (None, Some (3, 2)));
    (("compileall.compile_path", "optimize"), RConst (None, Some (3, 2)));
    (("concurrent.futures.Executor.map", "chunksize"), RConst (None, Some (3, 5)));
    (("concurrent.futures.Executor.shutdown", "cancel_futures"), RConst (None, Some (3, 9)));
    (("concurrent.futures.ProcessPoolExecutor", "initargs"), RConst (None, Some (3, 7)));
    (("concurrent.futures.ProcessPoolExecutor", "initializer"), RConst (None, Some (3, 7)));
    (("concurrent.futures.ProcessPoolExecutor", "max_tasks_per_child"), RConst (None, Some (3, 11)));
    (("concurrent.futures.ProcessPoolExecutor", "mp_context"), RConst (None, Some (3, 7)));
    (("concurrent.futures.ThreadPoolExecutor", "initargs"), RConst (None, Some (3, 7)));
    (("concurrent.futures.ThreadPoolExecutor", "initializer"), RConst (None, Some (3, 7)));
    (("concurrent.futures.ThreadPoolExecutor", "thread_name_prefix"), RConst (None, Some (3, 6)));
    (("configparser.ConfigParser", "allow_no_value"), RBpv "configparser" (None, Some (3, 2)));
    (("configparser.ConfigParser", "comment_prefixes"), RBpv "configparser" (None, Some (3, 2)));
    (("configparser.ConfigParser", "converters"), RBpv "configparser" (None, Some (3, 5)));
    (("configparser.ConfigParser", "default_section"), RBpv "configparser" (None, Some (3, 2)));
    (("configparser.ConfigParser", "delimiters"), RBpv "configparser" (None, Some (3, 2)));
    (("configparser.ConfigParser", "empty_lines_in_values"), RBpv "configparser" (None, Some (3, 2)));
    (("configparser.ConfigParser", "interpolation"), RBpv "configparser" (None, Some (3, 2)));
    (("configparser.ConfigParser", "strict"), RBpv "configparser" (None, Some (3, 2)));
    (("configparser.ConfigParser.read", "encoding"), RBpv "configparser" (None, Some (3, 2)));
    (("configparser.RawConfigParser", "allow_no_value"), RBpv "configparser" (None, Some (3, 2)));
    (("configparser.RawConfigParser", "comment_prefixes"), RBpv "configparser" (None, Some (3, 2)));
    (("configparser.RawConfigParser", "converters"), RBpv "configparser" (None, Some (3, 5)));
    (("configparser.RawConfigParser", "default_section"), RBpv "configparser" (None, Some (3, 2)));
    (("configparser.RawConfigParser", "delimiters"), RBpv "configparser" (None, Some (3, 2)));
    (("configparser.RawConfigParser", "empty_lines_in_values"), RBpv "configparser" (None, Some (3, 2)));
    (("configparser.RawConfigParser", "interpolation"), RBpv "configparser" (None, Some (3, 2)));
    (("configparser.RawConfigParser", "strict"), RBpv "configparser" (None, Some (3, 2)));
    (("configparser.RawConfigParser.read", "encoding"), RBpv "configparser" (None, Some (3, 2)));
    (("configparser.DuplicateSectionError", "lineno"), RBpv "configparser" (None, Some (3, 2)));
    (("configparser.DuplicateSectionError", "source"), RBpv "configparser" (None, Some (3, 2)));
    (("configparser.ParsingError", "source"), RBpv "configparser" (None, Some (3, 2)));
    (("crypt.mksalt", "rounds"), RConst (None, Some (3, 7)));
    (("ctypes.CDLL", "use_errno"), RConst (Some (2, 6), Some (3, 0)));
    (("ctypes.CDLL", "use_last_error"), RConst (Some (2, 6), Some (3, 0)));
    (("ctypes.CDLL", "winmode"), RConst (None, Some (3, 8)));
    (("ctypes.CFUNCTYPE", "use_errno"), RConst (Some (2, 6), Some (3, 0)));
    (("ctypes.CFUNCTYPE", "use_last_error"), RConst (Some (2, 6), Some (3, 0)));
    (("ctypes.OleDLL", "use_errno"), RConst (Some (2, 6), Some (3, 0)));
    (("ctypes.OleDLL", "use_last_error"), RConst (Some (2, 6), Some (3, 0)));
    (("ctypes.OleDLL", "winmode"), RConst (None, Some (3, 8)));
    (("ctypes.WinDLL", "use_errno"), RConst (Some (2, 6), Some (3, 0)));
    (("ctypes.WinDLL", "use_last_error"), RConst (Some (2, 6), Some (3, 0)));
    (("ctypes.WinDLL", "winmode"), RConst (None, Some (3, 8)));
    (("ctypes.byref", "offset"), RConst (Some (2, 6), Some (3, 0)));
    (("dataclasses.dataclass", "kw_only"), RConst (None, Some (3, 10)));
    (("dataclasses.dataclass", "match_args"), RConst (None, Some (3, 10)));
    (("dataclasses.dataclass", "slots"), RConst (None, Some (3, 10)));
    (("dataclasses.field", "kw_only"), RConst (None, Some (3, 10)));
    (("datetime.datetime", "fold"), RConst (None, Some (3, 6)));
    (("datetime.datetime.combine", "tzinfo"), RConst (None, Some (3, 6)));
    (("datetime.datetime.isoformat", "timespec"), RConst (None, Some (3, 6)));
    (("datetime.datetime.replace", "fold"), RConst (None, Some (3, 6)));
    (("datetime.time.isoformat", "timespec"), RConst (None, Some (3, 6)));
    (("datetime.time.replace", "fold"), RConst (None, Some (3, 6))) ].
Definition kwargs_reqs_x_1 : list ((string * string) * reqx) :=
  [ (("difflib.HtmlDiff.make_file", "charset"), RConst (None, Some (3, 5)));
    (("difflib.SequenceMatcher", "autojunk"), RConst (Some (2, 7), Some (3, 2)));
    (("dis.Bytecode", "show_caches"), RConst (None, Some (3, 11)));
    (("dis.dis", "depth"), RConst (None, Some (3, 7)));
    (("dis.dis", "file"), RConst (None, Some (3, 4)));
    (("dis.dis", "show_caches"), RConst (None, Some (3, 11)));
    (("dis.disassemble", "file"), RConst (None, Some (3, 4)));
    (("dis.disassemble", "show_caches"), RConst (None, Some (3, 11)));
    (("dis.disco", "file"), RConst (None, Some (3, 4)));
    (("dis.disco", "show_caches"), RConst (None, Some (3, 11)));
    (("dis.distb", "file"), RConst (None, Some (3, 4)));
    (("dis.distb", "show_caches"), RConst (None, Some (3, 11)));
    (("dis.get_instructions", "show_caches"), RConst (None, Some (3, 11)));
    (("dis.show_code", "file"), RConst (None, Some (3, 4)));
    (("dis.stack_effect", "jump"), RConst (None, Some (3, 8)));
    (("doctest.DocFileSuite", "encoding"), RConst (Some (2, 5), Some (3, 0)));
    (("doctest.DocTestSuite", "extraglobs"), RConst (Some (2, 4), Some (3, 0)));
    (("doctest.DocTestSuite", "globs"), RConst (Some (2, 4), Some (3, 0)));
    (("doctest.DocTestSuite", "optionflags"), RConst (Some (2, 4), Some (3, 0)));
    (("doctest.DocTestSuite", "setUp"), RConst (Some (2, 4), Some (3, 0)));
    (("doctest.DocTestSuite", "tearDown"), RConst (Some (2, 4), Some (3, 0)));
    (("doctest.DocTestSuite", "test_finder"), RConst (Some (2, 4), Some (3, 0)));
    (("doctest.debug", "pm"), RConst (Some (2, 4), Some (3, 0)));
    (("doctest.testfile", "encoding"), RConst (Some (2, 5), Some (3, 0)));
    (("doctest.testmod", "exclude_empty"), RConst (Some (2, 4), Some (3, 0)));
    (("doctest.testmod", "extraglobs"), RConst (Some (2, 4), Some (3, 0)));
    (("doctest.testmod", "optionflags"), RConst (Some (2, 3), Some (3, 0)));
    (("doctest.testmod", "raise_on_error"), RConst (Some (2, 4), Some (3, 0)));
    (("email.generator.BytesGenerator", "policy"), RConst (None, Some (3, 3)));
    (("email.generator.Generator", "policy"), RConst (None, Some (3, 3)));
    (("email.generator.Generator.flatten", "linesep"), RConst (None, Some (3, 2)));
    (("email.header.Header.encode", "linesep"), RConst (None, Some (3, 2)));
    (("email.message.EmailMessage.set_param", "replace"), RConst (None, Some (3, 4)));
    (("email.message.Message", "policy"), RConst (None, Some (3, 3)));
    (("email.message.Message.as_string", "policy"), RConst (None, Some (3, 4)));
    (("email.message.Message.get_param", "unquote"), RConst (Some (2, 2), Some (3, 0)));
    (("email.message.Message.get_params", "unquote"), RConst (Some (2, 2), Some (3, 0)));
    (("email.message.Message.set_param", "replace"), RConst (None, Some (3, 4)));
    (("email.message.Message.set_payload", "charset"), RConst (Some (2, 2), Some (3, 0)));
    (("email.message_from_binary_file", "policy"), RConst (None, Some (3, 3)));
    (("email.message_from_bytes", "policy"), RConst (None, Some (3, 3)));
    (("email.message_from_file", "policy"), RConst (None, Some (3, 3)));
    (("email.message_from_file", "strict"), RConst (Some (2, 2), Some (3, 0)));
    (("email.message_from_string", "policy"), RConst (None, Some (3, 3)));
    (("email.message_from_string", "strict"), RConst (Some (2, 2), Some (3, 0)));
    (("email.mime.application.MIMEApplication", "policy"), RConst (None, Some (3, 6)));
    (("email.mime.audio.MIMEAudio", "policy"), RConst (None, Some (3, 6)));
    (("email.mime.base.MIMEBase", "policy"), RConst (None, Some (3, 6)));
    (("email.mime.image.MIMEImage", "policy"), RConst (None, Some (3, 6)));
    (("email.mime.message.MIMEMessage", "policy"), RConst (None, Some (3, 6)));
    (("email.mime.multipart.MIMEMultipart", "policy"), RConst (None, Some (3, 6)));
    (("email.mime.text.MIMEText", "policy"), RConst (None, Some (3, 6)));
    (("email.parser.BytesFeedParser", "policy"), RConst (None, Some (3, 3)));
    (("email.parser.BytesParser", "policy"), RConst (None, Some (3, 3)));
    (("email.parser.FeedParser", "policy"), RConst (None, Some (3, 3)));
    (("email.parser.Parser", "policy"), RConst (None, Some (3, 3)));
    (("email.parser.Parser", "strict"), RConst (Some (2, 2), Some (3, 0)));
    (("email.parser.Parser.parse", "headersonly"), RConst (Some (2, 2), Some (3, 0)));
    (("email.parser.Parser.parsestr", "headersonly"), RConst (Some (2, 2), Some (3, 0)));
    (("email.policy.Policy", "mangle_from_"), RConst (None, Some (3, 5)));
    (("email.utils.formataddr", "charset"), RConst (None, Some (3, 3)));
    (("email.utils.formatdate", "charset"), RConst (None, Some (3, 3)));
    (("email.utils.make_msgid", "domain"), RConst (None, Some (3, 2)));
    (("enum.Enum", "start"), RBpv "enum" (None, Some (3, 5)));
    (("enumerate", "start"), RConst (Some (2, 6), Some (3, 0)));
    (("exec", "closure"), RConst (None, Some (3, 11)));
    (("fileinput.FileInput", "encoding"), RConst (None, Some (3, 10)));
    (("fileinput.FileInput", "errors"), RConst (None, Some (3, 10)));
    (("fileinput.FileInput", "mode"), RConst (Some (2, 5), Some (3, 0)));
    (("fileinput.FileInput", "openhook"), RConst (Some (2, 5), Some (3, 0)));
    (("fileinput.hook_compressed", "encoding"), RConst (None, Some (3, 10)));
    (("fileinput.hook_compressed", "errors"), RConst (None, Some (3, 10)));
    (("fileinput.hook_encoded", "errors"), RConst (None, Some (3, 6)));
    (("fileinput.input", "encoding"), RConst (None, Some (3, 10)));
    (("fileinput.input", "errors"), RConst (None, Some (3, 10)));
    (("fileinput.input", "mode"), RConst (Some (2, 5), Some (3, 0)));
    (("fileinput.input", "openhook"), RConst (Some (2, 5), Some (3, 0)));
    (("ftplib.FTP", "encoding"), RConst (None, Some (3, 9)));
    (("ftplib.FTP", "source_address"), RConst (None, Some (3, 3)));
    (("ftplib.FTP", "timeout"), RConst (Some (2, 6), Some (3, 0)));
    (("ftplib.FTP.connect", "source_address"), RConst (None, Some (3, 3)));
    (("ftplib.FTP.connect", "timeout"), RConst (Some (2, 6), Some (3, 0)));
    (("ftplib.FTP.storbinary", "callback"), RConst (Some (2, 6), Some (3, 0)));
    (("ftplib.FTP.storbinary", "rest"), RConst (Some (2, 7), Some (3, 2)));
    (("ftplib.FTP.storlines", "callback"), RConst (Some (2, 6), Some (3, 0)));
    (("ftplib.FTP_TLS", "context"), RConst (Some (2, 7), Some (3, 2)));
    (("ftplib.FTP_TLS", "encoding"), RConst (None, Some (3, 9)));
    (("ftplib.FTP_TLS", "source_address"), RConst (None, Some (3, 3)));
    (("functools.lru_cache", "typed"), RConst (None, Some (3, 3)));
    (("gc.collect", "generation"), RConst (Some (2, 5), Some (3, 0)));
    (("gc.get_objects", "generation"), RConst (None, Some (3, 8)));
    (("getpass.getpass", "stream"), RConst (Some (2, 5), Some (3, 0)));
    (("gettext.NullTranslations.install", "names"), RConst (Some (2, 5), Some (3, 0)));
    (("gettext.install", "codeset"), RConst (Some (2, 4), Some (3, 0)));
    (("gettext.install", "names"), RConst (Some (2, 5), Some (3, 0)));
    (("gettext.translation", "codeset"), RConst (Some (2, 4), Some (3, 0)));
    (("glob.glob", "dir_fd"), RConst (None, Some (3, 10)));
    (("glob.glob", "include_hidden"), RConst (None, Some (3, 11)));
    (("glob.glob", "recursive"), RConst (None, Some (3, 5)));
    (("glob.glob", "root_dir"), RConst (None, Some (3, 10)));
    (("glob.iglob", "dir_fd"), RConst (None, Some (3, 10)));
    (("glob.iglob", "include_hidden"), RConst (None, Some (3, 11)));
    (("glob.iglob", "recursive"), RConst (None, Some (3, 5)));
    (("glob.iglob", "root_dir"), RConst (None, Some (3, 10)));
    (("gzip.GzipFile", "mtime"), RConst (Some (2, 7), Some (3, 1)));
    (("gzip.compress", "mtime"), RConst (None, Some (3, 8)));
    (("gzip.open", "encoding"), RConst (None, Some (3, 3)));
    (("gzip.open", "errors"), RConst (None, Some (3, 3)));
    (("gzip.open", "newline"), RConst (None, Some (3, 3)));
    (("hashlib.blake2b", "usedforsecurity"), RConst (None, Some (3, 9)));
    (("hashlib.blake2s", "usedforsecurity"), RConst (None, Some (3, 9)));
    (("hashlib.md5", "usedforsecurity"), RConst (None, Some (3, 9)));
    (("hashlib.new", "usedforsecurity"), RConst (None, Some (3, 9)));
    (("hashlib.sha1", "usedforsecurity"), RConst (None, Some (3, 9)));
    (("hashlib.sha224", "usedforsecurity"), RConst (None, Some (3, 9)));
    (("hashlib.sha256", "usedforsecurity"), RConst (None, Some (3, 9)));
    (("hashlib.sha384", "usedforsecurity"), RConst (None, Some (3, 9)));
    (("hashlib.sha3_224", "usedforsecurity"), RConst (None, Some (3, 9)));
    (("hashlib.sha3_256", "usedforsecurity"), RConst (None, Some (3, 9)));
    (("hashlib.sha3_384", "usedforsecurity"), RConst (None, Some (3, 9)));
    (("hashlib.sha3_512", "usedforsecurity"), RConst (None, Some (3, 9)));
    (("hashlib.sha512", "usedforsecurity"), RConst (None, Some (3, 9)));
    (("hashlib.shake_128", "usedforsecurity"), RConst (None, Some (3, 9)));
    (("hashlib.shake_256", "usedforsecurity"), RConst (None, Some (3, 9)));
    (("heapq.merge", "key"), RConst (None, Some (3, 5)));
    (("heapq.merge", "reverse"), RConst (None, Some (3, 5)));
    (("heapq.nlargest", "key"), RConst (Some (2, 5), Some (3, 0)));
    (("heapq.nsmallest", "key"), RConst (Some (2, 5), Some (3, 0)));
    (("html.parser.HTMLParser", "convert_charrefs"), RConst (None, Some (3, 4)));
    (("http.client.HTTPConnection", "blocksize"), RConst (None, Some (3, 7)));
    (("http.client.HTTPConnection", "source_address"), RConst (None, Some (3, 2)));
    (("http.client.HTTPConnection.endheaders", "encode_chunked"), RConst (None, Some (3, 6)));
    (("http.client.HTTPConnection.request", "encode_chunked"), RConst (None, Some (3, 6)));
    (("http.client.HTTPSConnection", "check_hostname"), RConst (None, Some (3, 2)));
    (("http.client.HTTPSConnection", "context"), RConst (None, Some (3, 2)));
    (("http.client.HTTPSConnection", "source_address"), RConst (None, Some (3, 2)));
    (("http.server.BaseHTTPRequestHandler.send_error", "explain"), RConst (None, Some (3, 4)));
    (("http.server.SimpleHTTPRequestHandler", "directory"), RConst (None, Some (3, 7)));
    (("httplib.HTTPConnection", "source_address"), RConst (Some (2, 7), None));
    (("httplib.HTTPConnection", "timeout"), RConst (Some (2, 6), None));
    (("httplib.HTTPConnection.endheaders", "message_body"), RConst (Some (2, 7), None));
    (("httplib.HTTPConnection.putrequest", "skip_accept_encoding"), RConst (Some (2, 4), None));
    (("httplib.HTTPSConnection", "context"), RConst (Some (2, 7), None));
    (("httplib.HTTPSConnection", "source_address"), RConst (Some (2, 7), None));
    (("httplib.HTTPSConnection", "timeout"), RConst (Some (2, 6), None));
    (("imaplib.IMAP4", "timeout"), RConst (None, Some (3, 9)));
    (("imaplib.IMAP4.open", "timeout"), RConst (None, Some (3, 9)));
    (("imaplib.IMAP4_SSL", "ssl_context"), RConst (None, Some (3, 3)));
    (("imaplib.IMAP4_SSL", "timeout"), RConst (None, Some (3, 9)));
    (("importlib.util.cache_from_source", "optimization"), RConst (None, Some (3, 5)));
    (("inspect.Signature.from_callable", "globalns"), RConst (None, Some (3, 10)));
    (("inspect.Signature.from_callable", "localns"), RConst (None, Some (3, 10)));
    (("inspect.signature", "eval_str"), RConst (None, Some (3, 10)));
    (("inspect.signature", "follow_wrapped"), RConst (None, Some (3, 5)));
    (("inspect.signature", "globals"), RConst (None, Some (3, 10)));
    (("inspect.signature", "locals"), RConst (None, Some (3, 10)));
    (("io.FileIO", "opener"), RConst (None, Some (3, 3)));
    (("io.TextIOWrapper", "write_through"), RConst (None, Some (3, 3)));
    (("io.TextIOWrapper.reconfigure", "encoding"), RConst (None, Some (3, 11)));
    (("io.open", "opener"), RConst (None, Some (3, 3)));
    (("itertools.accumulate", "func"), RConst (None, Some (3, 3)));
    (("itertools.accumulate", "initial"), RConst (None, Some (3, 8)));
    (("itertools.count", "step"), RConst (Some (2, 7), Some (3, 1)));
    (("json.JSONDecoder", "object_pairs_hook"), RConst (Some (2, 7), Some (3, 1)));
    (("json.load", "object_pairs_hook"), RConst (Some (2, 7), Some (3, 1)));
    (("linecache.getline", "module_globals"), RConst (Some (2, 5), Some (3, 0)));
    (("locale.format", "monetary"), RConst (Some (2, 5), Some (3, 0)));
    (("locale.format_string", "monetary"), RConst (None, Some (3, 7)));
    (("logging.FileHandler", "delay"), RConst (Some (2, 6), Some (3, 0)));
    (("logging.FileHandler", "errors"), RConst (None, Some (3, 9)));
    (("logging.Formatter", "defaults"), RConst (None, Some (3, 10)));
    (("logging.Formatter", "style"), RConst (None, Some (3, 2)));
    (("logging.Formatter", "validate"), RConst (None, Some (3, 8)));
    (("logging.LogRecord", "func"), RConst (Some (2, 5), Some (3, 0)));
    (("logging.Logger.critical", "stack_info"), RConst (None, Some (3, 2)));
    (("logging.Logger.critical", "stacklevel"), RConst (None, Some (3, 8)));
    (("logging.Logger.debug", "stack_info"), RConst (None, Some (3, 2)));
    (("logging.Logger.debug", "stacklevel"), RConst (None, Some (3, 8)));
    (("logging.Logger.error", "stack_info"), RConst (None, Some (3, 2)));
    (("logging.Logger.error", "stacklevel"), RConst (None, Some (3, 8)));
    (("logging.Logger.exception", "stack_info"), RConst (None, Some (3, 2)));
    (("logging.Logger.exception", "stacklevel"), RConst (None, Some (3, 8)));
    (("logging.Logger.info", "stack_info"), RConst (None, Some (3, 2)));
    (("logging.Logger.info", "stacklevel"), RConst (None, Some (3, 8)));
    (("logging.Logger.log", "stack_info"), RConst (None, Some (3, 2)));
    (("logging.Logger.log", "stacklevel"), RConst (None, Some (3, 8)));
    (("logging.Logger.makeRecord", "extra"), RConst (Some (2, 5), Some (3, 0)));
    (("logging.Logger.makeRecord", "func"), RConst (Some (2, 5), Some (3, 0)));
    (("logging.Logger.warn", "stack_info"), RConst (None, Some (3, 2)));
    (("logging.Logger.warn", "stacklevel"), RConst (None, Some (3, 8)));
    (("logging.Logger.warning", "stack_info"), RConst (None, Some (3, 2)));
    (("logging.Logger.warning", "stacklevel"), RConst (None, Some (3, 8)));
    (("logging.basicConfig", "datefmt"), RConst (Some (2, 4), Some (3, 0)));
    (("logging.basicConfig", "encoding"), RConst (None, Some (3, 9)));
    (("logging.basicConfig", "errors"), RConst (None, Some (3, 9)));
    (("logging.basicConfig", "filemode"), RConst (Some (2, 4), Some (3, 0)));
    (("logging.basicConfig", "filename"), RConst (Some (2, 4), Some (3, 0)));
    (("logging.basicConfig", "force"), RConst (None, Some (3, 8)));
    (("logging.basicConfig", "format"), RConst (Some (2, 4), Some (3, 0)));
    (("logging.basicConfig", "handlers"), RConst (None, Some (3, 3))) ].
Definition kwargs_reqs_x_2 : list ((string * string) * reqx) :=
  [ (("logging.basicConfig", "level"), RConst (Some (2, 4), Some (3, 0)));
    (("logging.basicConfig", "stream"), RConst (Some (2, 4), Some (3, 0)));
    (("logging.basicConfig", "style"), RConst (None, Some (3, 2)));
    (("logging.config.fileConfig", "disable_existing_loggers"), RConst (Some (2, 6), Some (3, 0)));
    (("logging.config.fileConfig", "encoding"), RConst (None, Some (3, 10)));
    (("logging.config.listen", "verify"), RConst (None, Some (3, 4)));
    (("logging.critical", "extra"), RConst (Some (2, 5), Some (3, 0)));
    (("logging.critical", "stack_info"), RConst (None, Some (3, 2)));
    (("logging.critical", "stacklevel"), RConst (None, Some (3, 8)));
    (("logging.debug", "extra"), RConst (Some (2, 5), Some (3, 0)));
    (("logging.debug", "stack_info"), RConst (None, Some (3, 2)));
    (("logging.debug", "stacklevel"), RConst (None, Some (3, 8)));
    (("logging.error", "extra"), RConst (Some (2, 5), Some (3, 0)));
    (("logging.error", "stack_info"), RConst (None, Some (3, 2)));
    (("logging.error", "stacklevel"), RConst (None, Some (3, 8)));
    (("logging.exception", "extra"), RConst (Some (2, 5), Some (3, 0)));
    (("logging.exception", "stack_info"), RConst (None, Some (3, 2)));
    (("logging.exception", "stacklevel"), RConst (None, Some (3, 8)));
    (("logging.handlers.HTTPHandler", "context"), RConst (None, Some (3, 5)));
    (("logging.handlers.MemoryHandler", "flushOnClose"), RConst (None, Some (3, 6)));
    (("logging.handlers.QueueListener", "respect_handler_level"), RConst (None, Some (3, 5)));
    (("logging.handlers.RotatingFileHandler", "delay"), RConst (Some (2, 6), Some (3, 0)));
    (("logging.handlers.RotatingFileHandler", "errors"), RConst (None, Some (3, 9)));
    (("logging.handlers.SMTPHandler", "credentials"), RConst (Some (2, 6), Some (3, 0)));
    (("logging.handlers.SMTPHandler", "secure"), RConst (Some (2, 7), Some (3, 0)));
    (("logging.handlers.SMTPHandler", "timeout"), RConst (None, Some (3, 3)));
    (("logging.handlers.SysLogHandler", "socktype"), RConst (Some (2, 7), Some (3, 2)));
    (("logging.handlers.TimedRotatingFileHandler", "atTime"), RConst (None, Some (3, 4)));
    (("logging.handlers.TimedRotatingFileHandler", "delay"), RConst (Some (2, 6), Some (3, 0)));
    (("logging.handlers.TimedRotatingFileHandler", "errors"), RConst (None, Some (3, 9)));
    (("logging.handlers.TimedRotatingFileHandler", "utc"), RConst (Some (2, 6), Some (3, 0)));
    (("logging.handlers.WatchedFileHandler", "errors"), RConst (None, Some (3, 9)));
    (("logging.info", "extra"), RConst (Some (2, 5), Some (3, 0)));
    (("logging.info", "stack_info"), RConst (None, Some (3, 2)));
    (("logging.info", "stacklevel"), RConst (None, Some (3, 8)));
    (("logging.log", "extra"), RConst (Some (2, 5), Some (3, 0)));
    (("logging.log", "stack_info"), RConst (None, Some (3, 2)));
    (("logging.log", "stacklevel"), RConst (None, Some (3, 8)));
    (("logging.warn", "stack_info"), RConst (None, Some (3, 2)));
    (("logging.warn", "stacklevel"), RConst (None, Some (3, 8)));
    (("logging.warning", "extra"), RConst (Some (2, 5), Some (3, 0)));
    (("logging.warning", "stack_info"), RConst (None, Some (3, 2)));
    (("logging.warning", "stacklevel"), RConst (None, Some (3, 8)));
    (("lzma.LZMADecompressor.decompress", "max_length"), RConst (None, Some (3, 5)));
    (("marshal.dump", "version"), RConst (Some (2, 4), Some (3, 0)));
    (("marshal.dumps", "version"), RConst (Some (2, 4), Some (3, 0)));
    (("math.log", "base"), RConst (Some (2, 3), Some (3, 0)));
    (("math.nextafter", "steps"), RConst (None, Some (3, 12)));
    (("max", "default"), RConst (None, Some (3, 4)));
    (("max", "key"), RConst (Some (2, 5), Some (3, 0)));
    (("memoryview.hex", "bytes_per_sep"), RConst (None, Some (3, 8)));
    (("memoryview.hex", "sep"), RConst (None, Some (3, 8)));
    (("min", "default"), RConst (None, Some (3, 4)));
    (("min", "key"), RConst (Some (2, 5), Some (3, 0)));
    (("multiprocessing.Pool", "maxtasksperchild"), RConst (Some (2, 7), Some (3, 2)));
    (("multiprocessing.Process", "daemon"), RConst (None, Some (3, 3)));
    (("multiprocessing.managers.BaseManager", "shutdown_timeout"), RConst (None, Some (3, 11)));
    (("multiprocessing.pool.Pool", "context"), RConst (None, Some (3, 4)));
    (("multiprocessing.pool.Pool", "maxtasksperchild"), RConst (None, Some (3, 2)));
    (("nis.cat", "domain"), RConst (Some (2, 5), Some (3, 0)));
    (("nis.maps", "domain"), RConst (Some (2, 5), Some (3, 0)));
    (("nis.match", "domain"), RConst (Some (2, 5), Some (3, 0)));
    (("nntplib.NNTP", "usenetrc"), RConst (Some (2, 4), Some (3, 0)));
    (("nntplib.NNTP.list", "group_pattern"), RConst (None, Some (3, 2)));
    (("open", "closefd"), RConst (None, Some (3, 0)));
    (("open", "encoding"), RConst (None, Some (3, 0)));
    (("open", "errors"), RConst (None, Some (3, 0)));
    (("open", "newline"), RConst (None, Some (3, 0)));
    (("open", "opener"), RConst (None, Some (3, 3)));
    (("os.access", "dir_fd"), RConst (None, Some (3, 3)));
    (("os.access", "effective_ids"), RConst (None, Some (3, 3)));
    (("os.access", "follow_symlinks"), RConst (None, Some (3, 3)));
    (("os.chflags", "follow_symlinks"), RConst (None, Some (3, 3)));
    (("os.chmod", "dir_fd"), RConst (None, Some (3, 3)));
    (("os.chmod", "follow_symlinks"), RConst (None, Some (3, 3)));
    (("os.chown", "dir_fd"), RConst (None, Some (3, 3)));
    (("os.chown", "follow_symlinks"), RConst (None, Some (3, 3)));
    (("os.dup2", "inheritable"), RConst (None, Some (3, 4)));
    (("os.link", "dst_dir_fd"), RConst (None, Some (3, 3)));
    (("os.link", "follow_symlinks"), RConst (None, Some (3, 3)));
    (("os.link", "src_dir_fd"), RConst (None, Some (3, 3)));
    (("os.lstat", "dir_fd"), RConst (None, Some (3, 3)));
    (("os.makedirs", "exist_ok"), RConst (None, Some (3, 2)));
    (("os.mkdir", "dir_fd"), RConst (None, Some (3, 3)));
    (("os.mkfifo", "dir_fd"), RConst (None, Some (3, 3)));
    (("os.mknod", "dir_fd"), RConst (None, Some (3, 3)));
    (("os.open", "dir_fd"), RConst (None, Some (3, 3)));
    (("os.path.realpath", "strict"), RConst (None, Some (3, 10)));
    (("os.readlink", "dir_fd"), RConst (None, Some (3, 3)));
    (("os.remove", "dir_fd"), RConst (None, Some (3, 3)));
    (("os.rename", "dst_dir_fd"), RConst (None, Some (3, 3)));
    (("os.rename", "src_dir_fd"), RConst (None, Some (3, 3)));
    (("os.rmdir", "dir_fd"), RConst (None, Some (3, 3)));
    (("os.sendfile", "in_fd"), RConst (None, Some (3, 9)));
    (("os.sendfile", "out_fd"), RConst (None, Some (3, 9)));
    (("os.startfile", "arguments"), RConst (None, Some (3, 10)));
    (("os.startfile", "cwd"), RConst (None, Some (3, 10)));
    (("os.startfile", "operation"), RConst (Some (2, 5), Some (3, 0)));
    (("os.startfile", "show_cmd"), RConst (None, Some (3, 10)));
    (("os.stat", "dir_fd"), RConst (None, Some (3, 3)));
    (("os.stat", "follow_symlinks"), RConst (None, Some (3, 3)));
    (("os.symlink", "dir_fd"), RConst (None, Some (3, 3)));
    (("os.unlink", "dir_fd"), RConst (None, Some (3, 3)));
    (("os.utime", "dir_fd"), RConst (None, Some (3, 3)));
    (("os.utime", "follow_symlinks"), RConst (None, Some (3, 3)));
    (("os.utime", "ns"), RConst (None, Some (3, 3)));
    (("os.walk", "followlinks"), RConst (Some (2, 6), Some (3, 0)));
    (("pathlib.Path.chmod", "follow_symlinks"), RConst (None, Some (3, 10)));
    (("pathlib.Path.exists", "follow_symlinks"), RConst (None, Some (3, 12)));
    (("pathlib.Path.glob", "case_sensitive"), RConst (None, Some (3, 12)));
    (("pathlib.Path.rglob", "case_sensitive"), RConst (None, Some (3, 12)));
    (("pathlib.Path.mkdir", "exist_ok"), RConst (None, Some (3, 5)));
    (("pathlib.Path.resolve", "strict"), RConst (None, Some (3, 6)));
    (("pathlib.Path.stat", "follow_symlinks"), RConst (None, Some (3, 10)));
    (("pathlib.Path.unlink", "missing_ok"), RConst (None, Some (3, 8)));
    (("pathlib.Path.write_text", "newline"), RConst (None, Some (3, 10)));
    (("pathlib.PurePath.match", "case_sensitive"), RConst (None, Some (3, 12)));
    (("pathlib.PurePath.relative_to", "walk_up"), RConst (None, Some (3, 12)));
    (("pdb.Pdb", "nosigint"), RConst (None, Some (3, 2)));
    (("pdb.Pdb", "readrc"), RConst (None, Some (3, 6)));
    (("pdb.Pdb", "skip"), RConst (Some (2, 7), Some (3, 1)));
    (("pdb.set_trace", "header"), RConst (None, Some (3, 7)));
    (("pickle.Pickler", "buffer_callback"), RConst (None, Some (3, 8)));
    (("pickle.Pickler", "protocol"), RConst (Some (2, 3), Some (3, 0)));
    (("pickle.Unpickler", "buffers"), RConst (None, Some (3, 8)));
    (("pickle.Unpickler", "encoding"), RConst (None, Some (3, 0)));
    (("pickle.Unpickler", "errors"), RConst (None, Some (3, 0)));
    (("pickle.dump", "buffer_callback"), RConst (None, Some (3, 8)));
    (("pickle.dump", "protocol"), RConst (Some (2, 3), Some (3, 0)));
    (("pickle.dumps", "buffer_callback"), RConst (None, Some (3, 8)));
    (("pickle.dumps", "protocol"), RConst (Some (2, 3), Some (3, 0)));
    (("pickle.load", "buffers"), RConst (None, Some (3, 8)));
    (("pickle.load", "encoding"), RConst (None, Some (3, 0)));
    (("pickle.load", "errors"), RConst (None, Some (3, 0)));
    (("pickle.loads", "buffers"), RConst (None, Some (3, 8)));
    (("pickle.loads", "encoding"), RConst (None, Some (3, 0)));
    (("pickle.loads", "errors"), RConst (None, Some (3, 0)));
    (("pickletools.dis", "annotate"), RConst (None, Some (3, 2)));
    (("poplib.POP3", "timeout"), RConst (Some (2, 6), Some (3, 0)));
    (("poplib.POP3_SSL", "context"), RConst (None, Some (3, 2)));
    (("pow", "base"), RConst (None, Some (3, 8)));
    (("pow", "exp"), RConst (None, Some (3, 8)));
    (("pow", "mod"), RConst (None, Some (3, 8)));
    (("pprint.PrettyPrinter", "compact"), RConst (None, Some (3, 4)));
    (("pprint.PrettyPrinter", "sort_dicts"), RConst (None, Some (3, 8)));
    (("pprint.PrettyPrinter", "underscore_numbers"), RConst (None, Some (3, 10)));
    (("pprint.pformat", "compact"), RConst (None, Some (3, 4)));
    (("pprint.pformat", "depth"), RConst (Some (2, 4), Some (3, 0)));
    (("pprint.pformat", "indent"), RConst (Some (2, 4), Some (3, 0)));
    (("pprint.pformat", "sort_dicts"), RConst (None, Some (3, 8)));
    (("pprint.pformat", "underscore_numbers"), RConst (None, Some (3, 10)));
    (("pprint.pformat", "width"), RConst (Some (2, 4), Some (3, 0)));
    (("pprint.pprint", "compact"), RConst (None, Some (3, 4)));
    (("pprint.pprint", "depth"), RConst (Some (2, 4), Some (3, 0)));
    (("pprint.pprint", "indent"), RConst (Some (2, 4), Some (3, 0)));
    (("pprint.pprint", "sort_dicts"), RConst (None, Some (3, 8)));
    (("pprint.pprint", "underscore_numbers"), RConst (None, Some (3, 10)));
    (("pprint.pprint", "width"), RConst (Some (2, 4), Some (3, 0)));
    (("print", "flush"), RConst (None, Some (3, 3)));
    (("py_compile.compile", "invalidation_mode"), RConst (None, Some (3, 7)));
    (("py_compile.compile", "optimize"), RConst (None, Some (3, 2)));
    (("py_compile.compile", "quiet"), RConst (None, Some (3, 8)));
    (("pyclbr.Class", "end_lineno"), RConst (None, Some (3, 10)));
    (("pyclbr.Class", "parent"), RConst (None, Some (3, 7)));
    (("pyclbr.Function", "end_lineno"), RConst (None, Some (3, 10)));
    (("pyclbr.Function", "is_async"), RConst (None, Some (3, 10)));
    (("pyclbr.Function", "parent"), RConst (None, Some (3, 7)));
    (("random.sample", "counts"), RConst (None, Some (3, 9)));
    (("re.findall", "flags"), RConst (Some (2, 4), Some (3, 0)));
    (("re.finditer", "flags"), RConst (Some (2, 4), Some (3, 0)));
    (("re.split", "flags"), RConst (Some (2, 7), Some (3, 1)));
    (("re.sub", "flags"), RConst (Some (2, 7), Some (3, 1)));
    (("re.subn", "flags"), RConst (Some (2, 7), Some (3, 1)));
    (("sched.scheduler.enter", "kwargs"), RConst (None, Some (3, 3)));
    (("sched.scheduler.enterabs", "kwargs"), RConst (None, Some (3, 3)));
    (("sched.scheduler.run", "blocking"), RConst (None, Some (3, 3)));
    (("select.epoll", "flags"), RConst (None, Some (3, 3)));
    (("select.kqueue.control", "timeout"), RConst (None, Some (3, 0)));
    (("shelve.Shelf", "keyencoding"), RConst (None, Some (3, 2)));
    (("shelve.Shelf", "protocol"), RConst (Some (2, 3), Some (3, 0)));
    (("shelve.open", "protocol"), RConst (Some (2, 3), Some (3, 0)));
    (("shlex.shlex", "punctuation_chars"), RConst (None, Some (3, 6)));
    (("shlex.split", "posix"), RConst (Some (2, 6), Some (3, 0)));
    (("shutil.copy", "follow_symlinks"), RConst (None, Some (3, 3)));
    (("shutil.copy2", "follow_symlinks"), RConst (None, Some (3, 3)));
    (("shutil.copyfile", "follow_symlinks"), RConst (None, Some (3, 3)));
    (("shutil.copymode", "follow_symlinks"), RConst (None, Some (3, 3)));
    (("shutil.copystat", "follow_symlinks"), RConst (None, Some (3, 3)));
    (("shutil.copytree", "copy_function"), RConst (None, Some (3, 2)));
    (("shutil.copytree", "dirs_exist_ok"), RConst (None, Some (3, 8)));
    (("shutil.copytree", "ignore"), RConst (Some (2, 6), Some (3, 0)));
    (("shutil.copytree", "ignore_dangling_symlinks"), RConst (None, Some (3, 2)));
    (("shutil.move", "copy_function"), RConst (None, Some (3, 5)));
    (("shutil.rmtree", "dir_fd"), RConst (None, Some (3, 11)));
    (("shutil.rmtree", "onexc"), RConst (None, Some (3, 12)));
    (("shutil.unpack_archive", "filter"), RConst (None, Some (3, 12)));
    (("signal.set_wakeup_fd", "warn_on_full_buffer"), RConst (None, Some (3, 7)));
    (("smtpd.SMTPChannel", "decode_data"), RConst (None, Some (3, 5)));
    (("smtpd.SMTPChannel", "enable_SMTPUTF8"), RConst (None, Some (3, 5)));
    (("smtpd.SMTPServer", "decode_data"), RConst (None, Some (3, 5))) ].
Definition kwargs_reqs_x_3 : list ((string * string) * reqx) :=
  [ (("smtpd.SMTPServer", "enable_SMTPUTF8"), RConst (None, Some (3, 5)));
    (("smtpd.SMTPServer", "map"), RConst (None, Some (3, 4)));
    (("smtplib.LMTP", "timeout"), RConst (None, Some (3, 9)));
    (("smtplib.SMTP", "source_address"), RConst (None, Some (3, 3)));
    (("smtplib.SMTP", "timeout"), RConst (Some (2, 6), Some (3, 0)));
    (("smtplib.SMTP.login", "initial_response_ok"), RConst (None, Some (3, 5)));
    (("smtplib.SMTP.starttls", "context"), RConst (None, Some (3, 3)));
    (("smtplib.SMTP_SSL", "context"), RConst (None, Some (3, 3)));
    (("smtplib.SMTP_SSL", "source_address"), RConst (None, Some (3, 3)));
    (("socket.create_connection", "all_errors"), RConst (None, Some (3, 11)));
    (("socket.create_connection", "source_address"), RConst (Some (2, 7), Some (3, 2)));
    (("socket.setsockopt", "optlen"), RConst (None, Some (3, 6)));
    (("sorted", "key"), RConst (Some (2, 4), Some (3, 0)));
    (("sorted", "reverse"), RConst (Some (2, 4), Some (3, 0)));
    (("sqlite3.Connection.create_function", "deterministic"), RConst (None, Some (3, 8)));
    (("sqlite3.Connection.load_extension", "entrypoint"), RConst (None, Some (3, 12)));
    (("sqlite3.connect", "autocommit"), RConst (None, Some (3, 12)));
    (("sqlite3.connect", "uri"), RConst (None, Some (3, 4)));
    (("ssl.SSLContext.load_cert_chain", "password"), RConst (None, Some (3, 3)));
    (("ssl.SSLContext.load_verify_locations", "cadata"), RConst (None, Some (3, 4)));
    (("ssl.SSLContext.wrap_bio", "session"), RConst (None, Some (3, 6)));
    (("ssl.SSLContext.wrap_socket", "session"), RConst (None, Some (3, 6)));
    (("ssl.get_server_certificate", "timeout"), RConst (None, Some (3, 10)));
    (("ssl.wrap_socket", "ciphers"), RConst (Some (2, 7), Some (3, 2)));
    (("statistics.fmean", "weights"), RConst (None, Some (3, 11)));
    (("statistics.harmonic_mean", "weights"), RConst (None, Some (3, 10)));
    (("statistics.linear_regression", "proportional"), RConst (None, Some (3, 11)));
    (("str.decode", "encoding"), RConst (Some (2, 7), None));
    (("str.decode", "errors"), RConst (Some (2, 7), None));
    (("str.encode", "encoding"), RConst (Some (2, 7), Some (3, 1)));
    (("str.encode", "errors"), RConst (Some (2, 7), Some (3, 1)));
    (("str.ljust", "fillchar"), RConst (Some (2, 4), Some (3, 0)));
    (("str.lstrip", "chars"), RConst (Some (2, 2), Some (3, 0)));
    (("str.rjust", "fillchar"), RConst (Some (2, 4), Some (3, 0)));
    (("str.rstrip", "chars"), RConst (Some (2, 2), Some (3, 0)));
    (("str.strip", "chars"), RConst (Some (2, 2), Some (3, 0)));
    (("string.lstrip", "chars"), RConst (Some (2, 3), None));
    (("string.rstrip", "chars"), RConst (Some (2, 3), None));
    (("string.strip", "chars"), RConst (Some (2, 3), None));
    (("subprocess.Popen", "encoding"), RConst (None, Some (3, 6)));
    (("subprocess.Popen", "errors"), RConst (None, Some (3, 6)));
    (("subprocess.Popen", "extra_groups"), RConst (None, Some (3, 9)));
    (("subprocess.Popen", "group"), RConst (None, Some (3, 9)));
    (("subprocess.Popen", "pass_fds"), RConst (None, Some (3, 2)));
    (("subprocess.Popen", "pipesize"), RConst (None, Some (3, 10)));
    (("subprocess.Popen", "process_group"), RConst (None, Some (3, 11)));
    (("subprocess.Popen", "restore_signals"), RConst (None, Some (3, 2)));
    (("subprocess.Popen", "start_new_session"), RConst (None, Some (3, 2)));
    (("subprocess.Popen", "text"), RConst (None, Some (3, 7)));
    (("subprocess.Popen", "umask"), RConst (None, Some (3, 9)));
    (("subprocess.Popen", "user"), RConst (None, Some (3, 9)));
    (("subprocess.Popen.communicate", "timeout"), RConst (None, Some (3, 3)));
    (("subprocess.Popen.wait", "timeout"), RConst (None, Some (3, 3)));
    (("subprocess.CalledProcessError", "stderr"), RConst (None, Some (3, 5)));
    (("subprocess.CalledProcessError", "stdout"), RConst (None, Some (3, 5)));
    (("subprocess.STARTUPINFO", "lpAttributeList"), RConst (None, Some (3, 7)));
    (("subprocess.TimeoutExpired", "stderr"), RConst (None, Some (3, 5)));
    (("subprocess.TimeoutExpired", "stdout"), RConst (None, Some (3, 5)));
    (("subprocess.call", "encoding"), RConst (None, Some (3, 6)));
    (("subprocess.call", "errors"), RConst (None, Some (3, 6)));
    (("subprocess.call", "extra_groups"), RConst (None, Some (3, 9)));
    (("subprocess.call", "group"), RConst (None, Some (3, 9)));
    (("subprocess.call", "pass_fds"), RConst (None, Some (3, 2)));
    (("subprocess.call", "pipesize"), RConst (None, Some (3, 10)));
    (("subprocess.call", "process_group"), RConst (None, Some (3, 11)));
    (("subprocess.call", "restore_signals"), RConst (None, Some (3, 2)));
    (("subprocess.call", "start_new_session"), RConst (None, Some (3, 2)));
    (("subprocess.call", "text"), RConst (None, Some (3, 7)));
    (("subprocess.call", "timeout"), RConst (None, Some (3, 3)));
    (("subprocess.call", "umask"), RConst (None, Some (3, 9)));
    (("subprocess.call", "user"), RConst (None, Some (3, 9)));
    (("subprocess.check_call", "encoding"), RConst (None, Some (3, 6)));
    (("subprocess.check_call", "errors"), RConst (None, Some (3, 6)));
    (("subprocess.check_call", "extra_groups"), RConst (None, Some (3, 9)));
    (("subprocess.check_call", "group"), RConst (None, Some (3, 9)));
    (("subprocess.check_call", "pass_fds"), RConst (None, Some (3, 2)));
    (("subprocess.check_call", "pipesize"), RConst (None, Some (3, 10)));
    (("subprocess.check_call", "process_group"), RConst (None, Some (3, 11)));
    (("subprocess.check_call", "restore_signals"), RConst (None, Some (3, 2)));
    (("subprocess.check_call", "start_new_session"), RConst (None, Some (3, 2)));
    (("subprocess.check_call", "text"), RConst (None, Some (3, 7)));
    (("subprocess.check_call", "timeout"), RConst (None, Some (3, 3)));
    (("subprocess.check_call", "umask"), RConst (None, Some (3, 9)));
    (("subprocess.check_call", "user"), RConst (None, Some (3, 9)));
    (("subprocess.check_output", "encoding"), RConst (None, Some (3, 6)));
    (("subprocess.check_output", "errors"), RConst (None, Some (3, 6)));
    (("subprocess.check_output", "extra_groups"), RConst (None, Some (3, 9)));
    (("subprocess.check_output", "group"), RConst (None, Some (3, 9)));
    (("subprocess.check_output", "input"), RConst (None, Some (3, 4)));
    (("subprocess.check_output", "pass_fds"), RConst (None, Some (3, 2)));
    (("subprocess.check_output", "pipesize"), RConst (None, Some (3, 10)));
    (("subprocess.check_output", "process_group"), RConst (None, Some (3, 11)));
    (("subprocess.check_output", "restore_signals"), RConst (None, Some (3, 2)));
    (("subprocess.check_output", "start_new_session"), RConst (None, Some (3, 2)));
    (("subprocess.check_output", "text"), RConst (None, Some (3, 7)));
    (("subprocess.check_output", "timeout"), RConst (None, Some (3, 3)));
    (("subprocess.check_output", "umask"), RConst (None, Some (3, 9)));
    (("subprocess.check_output", "user"), RConst (None, Some (3, 9)));
    (("subprocess.getoutput", "encoding"), RConst (None, Some (3, 11)));
    (("subprocess.getoutput", "errors"), RConst (None, Some (3, 11)));
    (("subprocess.getstatusoutput", "encoding"), RConst (None, Some (3, 11)));
    (("subprocess.getstatusoutput", "errors"), RConst (None, Some (3, 11)));
    (("subprocess.run", "capture_output"), RConst (None, Some (3, 7)));
    (("subprocess.run", "encoding"), RConst (None, Some (3, 6)));
    (("subprocess.run", "errors"), RConst (None, Some (3, 6)));
    (("subprocess.run", "extra_groups"), RConst (None, Some (3, 9)));
    (("subprocess.run", "group"), RConst (None, Some (3, 9)));
    (("subprocess.run", "pipesize"), RConst (None, Some (3, 10)));
    (("subprocess.run", "text"), RConst (None, Some (3, 7)));
    (("subprocess.run", "umask"), RConst (None, Some (3, 9)));
    (("subprocess.run", "user"), RConst (None, Some (3, 9)));
    (("sum", "start"), RConst (None, Some (3, 8)));
    (("sys.getwindowsversion", "platform_version"), RConst (None, Some (3, 6)));
    (("tarfile.TarFile", "encoding"), RConst (Some (2, 6), Some (3, 0)));
    (("tarfile.TarFile", "errors"), RConst (Some (2, 6), Some (3, 0)));
    (("tarfile.TarFile", "format"), RConst (Some (2, 6), Some (3, 0)));
    (("tarfile.TarFile", "pax_headers"), RConst (Some (2, 6), Some (3, 0)));
    (("tarfile.TarFile", "tarinfo"), RConst (Some (2, 6), Some (3, 0)));
    (("tarfile.TarFile.add", "exclude"), RConst (Some (2, 6), Some (3, 0)));
    (("tarfile.TarFile.add", "filter"), RConst (Some (2, 7), Some (3, 2)));
    (("tarfile.TarFile.extract", "filter"), RConst (None, Some (3, 12)));
    (("tarfile.TarFile.extract", "numeric_owner"), RConst (None, Some (3, 5)));
    (("tarfile.TarFile.extract", "set_attrs"), RConst (None, Some (3, 2)));
    (("tarfile.TarFile.extractall", "filter"), RConst (None, Some (3, 12)));
    (("tarfile.TarFile.extractall", "numeric_owner"), RConst (None, Some (3, 5)));
    (("tarfile.TarFile.list", "members"), RConst (None, Some (3, 5)));
    (("tarfile.TarInfo.tobuf", "encoding"), RConst (Some (2, 6), Some (3, 0)));
    (("tarfile.TarInfo.tobuf", "errors"), RConst (Some (2, 6), Some (3, 0)));
    (("tarfile.TarInfo.tobuf", "format"), RConst (Some (2, 6), Some (3, 0)));
    (("telnetlib.Telnet", "timeout"), RConst (Some (2, 6), Some (3, 0)));
    (("telnetlib.Telnet.open", "timeout"), RConst (Some (2, 6), Some (3, 0)));
    (("tempfile.NamedTemporaryFile", "delete"), RConst (Some (2, 6), Some (3, 0)));
    (("tempfile.NamedTemporaryFile", "errors"), RConst (None, Some (3, 8)));
    (("tempfile.NamedTemporaryFile", "delete_on_close"), RConst (None, Some (3, 12)));
    (("tempfile.SpooledTemporaryFile", "errors"), RConst (None, Some (3, 8)));
    (("tempfile.SpooledTemporaryFile.truncate", "size"), RConst (None, Some (3, 3)));
    (("tempfile.TemporaryDirectory", "delete"), RConst (None, Some (3, 12)));
    (("tempfile.TemporaryDirectory", "ignore_cleanup_errors"), RConst (None, Some (3, 10)));
    (("tempfile.TemporaryFile", "errors"), RConst (None, Some (3, 8)));
    (("test.support.check_warnings", "quiet"), RConst (Some (2, 7), Some (3, 2)));
    (("threading.Lock.acquire", "blocking"), RConst (None, Some (3, 0)));
    (("threading.Lock.acquire", "timeout"), RConst (None, Some (3, 2)));
    (("threading.RLock.acquire", "blocking"), RConst (None, Some (3, 0)));
    (("threading.RLock.acquire", "timeout"), RConst (None, Some (3, 2)));
    (("threading.Semaphore.acquire", "timeout"), RConst (None, Some (3, 2)));
    (("threading.Semaphore.release", "n"), RConst (None, Some (3, 9)));
    (("threading.Thread", "daemon"), RConst (None, Some (3, 3)));
    (("timeit.Timer", "globals"), RConst (None, Some (3, 5)));
    (("timeit.repeat", "globals"), RConst (None, Some (3, 5)));
    (("timeit.timeit", "globals"), RConst (None, Some (3, 5)));
    (("tkinter.font.nametofont", "root"), RConst (None, Some (3, 10)));
    (("traceback.TracebackException", "compact"), RConst (None, Some (3, 10)));
    (("tracemalloc.Filter", "domain"), RConst (None, Some (3, 6)));
    (("typing.get_type_hints", "include_extras"), RConst (None, Some (3, 9)));
    (("unittest.TestCase.assertAlmostEqual", "delta"), RConst (Some (2, 7), Some (3, 2)));
    (("unittest.TestCase.assertNotAlmostEqual", "delta"), RConst (Some (2, 7), Some (3, 2)));
    (("unittest.TestCase.assertRaises", "msg"), RConst (None, Some (3, 3)));
    (("unittest.TestCase.assertRaisesRegex", "msg"), RConst (None, Some (3, 3)));
    (("unittest.TestCase.assertWarns", "msg"), RConst (None, Some (3, 3)));
    (("unittest.TestCase.assertWarnsRegex", "msg"), RConst (None, Some (3, 3)));
    (("unittest.TestLoader.loadTestsFromModule", "pattern"), RConst (None, Some (3, 5)));
    (("unittest.TextTestRunner", "tb_locals"), RConst (None, Some (3, 5)));
    (("unittest.TextTestRunner", "warnings"), RConst (None, Some (3, 2)));
    (("unittest.main", "buffer"), RConst (Some (2, 7), Some (3, 2)));
    (("unittest.main", "catchbreak"), RConst (Some (2, 7), Some (3, 2)));
    (("unittest.main", "exit"), RConst (Some (2, 7), Some (3, 1)));
    (("unittest.main", "failfast"), RConst (Some (2, 7), Some (3, 2)));
    (("unittest.main", "verbosity"), RConst (Some (2, 7), Some (3, 2)));
    (("unittest.main", "warnings"), RConst (None, Some (3, 2)));
    (("unittest.mock.Mock", "unsafe"), RConst (None, Some (3, 5)));
    (("unittest.mock.Mock.reset_mock", "return_value"), RConst (None, Some (3, 6)));
    (("unittest.mock.Mock.reset_mock", "side_effect"), RConst (None, Some (3, 6)));
    (("urllib.URLopener", "context"), RConst (Some (2, 7), None));
    (("urllib.parse.parse_qs", "encoding"), RConst (None, Some (3, 2)));
    (("urllib.parse.parse_qs", "errors"), RConst (None, Some (3, 2)));
    (("urllib.parse.parse_qs", "max_num_fields"), RConst (None, Some (3, 6)));
    (("urllib.parse.parse_qs", "separator"), RConst (None, Some (3, 6)));
    (("urllib.parse.parse_qsl", "encoding"), RConst (None, Some (3, 2)));
    (("urllib.parse.parse_qsl", "errors"), RConst (None, Some (3, 2)));
    (("urllib.parse.parse_qsl", "max_num_fields"), RConst (None, Some (3, 6)));
    (("urllib.parse.parse_qsl", "separator"), RConst (None, Some (3, 6)));
    (("urllib.parse.urlencode", "quote_via"), RConst (None, Some (3, 5)));
    (("urllib.request.HTTPSHandler", "check_hostname"), RConst (None, Some (3, 2)));
    (("urllib.request.HTTPSHandler", "context"), RConst (None, Some (3, 2)));
    (("urllib.request.Request", "method"), RConst (None, Some (3, 3)));
    (("urllib.request.urlopen", "cadefault"), RConst (None, Some (3, 3)));
    (("urllib.request.urlopen", "cafile"), RConst (None, Some (3, 2)));
    (("urllib.request.urlopen", "capath"), RConst (None, Some (3, 2)));
    (("urllib.request.urlopen", "context"), RConst (None, Some (3, 4)));
    (("urllib.urlopen", "context"), RConst (Some (2, 7), None));
    (("urllib.urlopen", "proxies"), RConst (Some (2, 3), None));
    (("urllib.urlretrieve", "context"), RConst (Some (2, 7), None));
    (("urllib2.HTTPSHandler", "context"), RConst (Some (2, 7), None));
    (("urllib2.OpenerDirector.open", "timeout"), RConst (Some (2, 6), None));
    (("urllib2.urlopen", "cadefault"), RConst (Some (2, 7), None));
    (("urllib2.urlopen", "cafile"), RConst (Some (2, 7), None));
    (("urllib2.urlopen", "capth"), RConst (Some (2, 7), None));
    (("urllib2.urlopen", "context"), RConst (Some (2, 7), None));
    (("urllib2.urlopen", "timeout"), RConst (Some (2, 6), None));
    (("urlparse.parse_qs", "max_num_fields"), RConst (Some (2, 7), None)) ].
Definition kwargs_reqs_x_4 : list ((string * string) * reqx) :=
  [ (("urlparse.parse_qsl", "max_num_fields"), RConst (Some (2, 7), None));
    (("uu.encode", "backtick"), RConst (None, Some (3, 7)));
    (("venv.EnvBuilder", "prompt"), RConst (None, Some (3, 6)));
    (("venv.EnvBuilder", "upgrade_deps"), RConst (None, Some (3, 9)));
    (("venv.EnvBuilder", "with_pip"), RConst (None, Some (3, 4)));
    (("venv.create", "prompt"), RConst (None, Some (3, 6)));
    (("venv.create", "upgrade_deps"), RConst (None, Some (3, 9)));
    (("venv.create", "with_pip"), RConst (None, Some (3, 4)));
    (("warnings.catch_warnings", "action"), RConst (None, Some (3, 11)));
    (("warnings.catch_warnings", "append"), RConst (None, Some (3, 11)));
    (("warnings.catch_warnings", "category"), RConst (None, Some (3, 11)));
    (("warnings.catch_warnings", "lineno"), RConst (None, Some (3, 11)));
    (("warnings.formatwarning", "line"), RConst (Some (2, 6), Some (3, 0)));
    (("warnings.showwarning", "line"), RConst (Some (2, 7), Some (3, 0)));
    (("warnings.warn", "source"), RConst (None, Some (3, 6)));
    (("warnings.warn_explicit", "module_globals"), RConst (Some (2, 5), Some (3, 0)));
    (("warnings.warn_explicit", "source"), RConst (None, Some (3, 6)));
    (("webbrowser.register", "preferred"), RConst (None, Some (3, 7)));
    (("winreg.OpenKey", "access"), RConst (None, Some (3, 2)));
    (("winreg.OpenKey", "key"), RConst (None, Some (3, 2)));
    (("winreg.OpenKey", "reserved"), RConst (None, Some (3, 2)));
    (("winreg.OpenKey", "sub_key"), RConst (None, Some (3, 2)));
    (("winreg.OpenKeyEx", "access"), RConst (None, Some (3, 2)));
    (("winreg.OpenKeyEx", "key"), RConst (None, Some (3, 2)));
    (("winreg.OpenKeyEx", "reserved"), RConst (None, Some (3, 2)));
    (("winreg.OpenKeyEx", "sub_key"), RConst (None, Some (3, 2)));
    (("xml.dom.minidom.Document.writexml", "encoding"), RConst (Some (2, 3), Some (3, 0)));
    (("xml.dom.minidom.Node.toprettyxml", "encoding"), RConst (Some (2, 3), Some (3, 0)));
    (("xml.dom.minidom.Node.toprettyxml", "standalone"), RConst (None, Some (3, 9)));
    (("xml.dom.minidom.Node.toxml", "encoding"), RConst (Some (2, 3), Some (3, 0)));
    (("xml.dom.minidom.Node.toxml", "standalone"), RConst (None, Some (3, 9)));
    (("xml.dom.minidom.Node.writexml", "addindent"), RConst (Some (2, 1), Some (3, 0)));
    (("xml.dom.minidom.Node.writexml", "encoding"), RConst (None, Some (3, 0)));
    (("xml.dom.minidom.Node.writexml", "indent"), RConst (Some (2, 1), Some (3, 0)));
    (("xml.dom.minidom.Node.writexml", "newl"), RConst (Some (2, 1), Some (3, 0)));
    (("xml.dom.minidom.Node.writexml", "standalone"), RConst (None, Some (3, 9)));
    (("xml.etree.ElementInclude.include", "base_url"), RConst (None, Some (3, 9)));
    (("xml.etree.ElementInclude.include", "max_depth"), RConst (None, Some (3, 9)));
    (("xml.etree.ElementTree.ElementTree.write", "short_empty_elements"), RConst (None, Some (3, 4)));
    (("xml.etree.ElementTree.tostring", "default_namespace"), RConst (None, Some (3, 8)));
    (("xml.etree.ElementTree.tostring", "short_empty_elements"), RConst (None, Some (3, 4)));
    (("xml.etree.ElementTree.tostring", "xml_declaration"), RConst (None, Some (3, 8)));
    (("xml.etree.ElementTree.tostringlist", "default_namespace"), RConst (None, Some (3, 8)));
    (("xml.etree.ElementTree.tostringlist", "short_empty_elements"), RConst (None, Some (3, 4)));
    (("xml.etree.ElementTree.tostringlist", "xml_declaration"), RConst (None, Some (3, 8)));
    (("xml.etree.ElementTree.write", "short_empty_elements"), RConst (None, Some (3, 4)));
    (("xml.sax.saxutils.XMLGenerator", "short_empty_elements"), RConst (None, Some (3, 2)));
    (("xmlrpc.client.ServerProxy", "context"), RConst (None, Some (3, 4)));
    (("xmlrpc.client.ServerProxy", "headers"), RConst (None, Some (3, 8)));
    (("xmlrpc.client.ServerProxy", "use_builtin_types"), RConst (None, Some (3, 3)));
    (("xmlrpc.client.loads", "use_builtin_types"), RConst (None, Some (3, 3)));
    (("xmlrpc.server.CGIXMLRPCRequestHandler", "use_builtin_types"), RConst (None, Some (3, 3)));
    (("xmlrpc.server.DocXMLRPCServer", "use_builtin_types"), RConst (None, Some (3, 3)));
    (("xmlrpc.server.SimpleXMLRPCServer", "use_builtin_types"), RConst (None, Some (3, 3)));
    (("xmlrpclib.ServerProxy", "context"), RConst (Some (2, 7), None));
    (("xmlrpclib.ServerProxy", "use_datetime"), RConst (Some (2, 5), None));
    (("xmlrpclib.loads", "use_datetime"), RConst (Some (2, 5), None));
    (("zip", "strict"), RConst (None, Some (3, 10)));
    (("zipapp.create_archive", "compressed"), RConst (None, Some (3, 7)));
    (("zipapp.create_archive", "filter"), RConst (None, Some (3, 7)));
    (("zipfile.PyZipFile", "optimize"), RConst (None, Some (3, 2)));
    (("zipfile.PyZipFile.writepy", "filterfunc"), RConst (None, Some (3, 4)));
    (("zipfile.ZipFile", "compresslevel"), RConst (None, Some (3, 7)));
    (("zipfile.ZipFile", "metadata_encoding"), RConst (None, Some (3, 11)));
    (("zipfile.ZipFile", "strict_timestamps"), RConst (None, Some (3, 8)));
    (("zipfile.ZipFile.read", "pwd"), RConst (Some (2, 6), Some (3, 0)));
    (("zipfile.ZipFile.writestr", "compress_type"), RConst (Some (2, 7), Some (3, 2)));
    (("zipfile.ZipInfo.from_file", "strict_timestamps"), RConst (None, Some (3, 8)));
    (("zlib.Decompress.decompress", "max_length"), RConst (None, Some (3, 6)));
    (("zlib.compress", "level"), RConst (None, Some (3, 6)));
    (("zlib.compress", "wbits"), RConst (None, Some (3, 11)));
    (("zlib.compressobj", "zdict"), RConst (None, Some (3, 3)));
    (("zlib.decompress", "bufsize"), RConst (None, Some (3, 6)));
    (("zlib.decompress", "wbits"), RConst (None, Some (3, 6)));
    (("zlib.decompressobj", "zdict"), RConst (None, Some (3, 3))) ].
(** rules.py:2858-3754 [KWARGS_REQS], all chunks in order. *)
Definition kwargs_reqs_x : list ((string * string) * reqx) :=
  kwargs_reqs_x_0 ++ kwargs_reqs_x_1 ++ kwargs_reqs_x_2 ++ kwargs_reqs_x_3 ++ kwargs_reqs_x_4.

(** rules.py:3757-3762 [STRFTIME_REQS]. *)
Definition strftime_reqs : list (string * mins) :=
  [ ("G", (None, Some (3, 6)));
    ("V", (None, Some (3, 6)));
    ("f", (Some (2, 6), Some (3, 0)));
    ("u", (None, Some (3, 6))) ].

(** rules.py:3765-3769 [BYTES_REQS]. *)
Definition bytes_reqs : list (string * mins) :=
  [ ("a", (None, Some (3, 5)));
    ("b", (None, Some (3, 5)));
    ("r", (Some (2, 7), Some (3, 5))) ].

(** rules.py:3772-3775 [ARRAY_TYPECODE_REQS]. *)
Definition array_typecode_reqs : list (string * mins) :=
  [ ("q", (None, Some (3, 3)));
    ("Q", (None, Some (3, 3))) ].

(** rules.py:3778-3782 [CODECS_ERROR_HANDLERS]. *)
Definition codecs_error_handlers_reqs : list (string * mins) :=
  [ ("surrogateescape", (None, Some (3, 1)));
    ("surrogatepass", (None, Some (3, 1)));
    ("namereplace", (None, Some (3, 5))) ].

(** rules.py:3978-3981 [DECORATOR_USER_FUNCTIONS]. *)
Definition decorator_user_functions : list (string * mins) :=
  [ ("functools.lru_cache", (None, Some (3, 8)));
    ("functools.cache", (None, Some (3, 9))) ].

(** rules.py:3786-3799 [CODECS_ERRORS_INDICES]. *)
Definition codecs_errors_indices : list (string * nat) :=
  [ ("codecs.encode", 2%nat);
    ("codecs.decode", 2%nat);
    ("codecs.open", 3%nat);
    ("codecs.EncodedFile", 3%nat);
    ("codecs.iterencode", 2%nat);
    ("codecs.iterdecode", 2%nat);
    ("codecs.IncrementalEncoder", 0%nat);
    ("codecs.IncrementalDecoder", 0%nat);
    ("codecs.StreamWriter", 1%nat);
    ("codecs.StreamReader", 1%nat);
    ("codecs.StreamReaderWriter", 3%nat);
    ("codecs.StreamRecorder", 5%nat) ].

(** rules.py:3803-3847 [CODECS_ENCODINGS]. *)
Definition codecs_encodings_reqs : list (enckey * mins) :=
  [ (EncNames ["cp273"; "273"; "ibm273"; "csibm273"], (None, Some (3, 4)));
    (EncNames ["cp1125"; "1125"; "ibm1125"; "cp866u"; "ruscii"], (None, Some (3, 4)));
    (EncNames ["cp65001"], (None, Some (3, 3)));
    (EncNames ["koi8_t"], (None, Some (3, 5)));
    (EncNames ["kz1048"; "kz_1048"; "strk1048_2002"; "kz-1048"; "strk1048-2002"; "rk1048"], (None, Some (3, 5)));
    (EncNames ["oem"], (None, Some (3, 6)));
    (EncNames ["base64_codec"; "base64-codec"], (None, Some (3, 2)));
    (EncNames ["base64"; "base_64"; "base-64"], (None, Some (3, 4)));
    (EncNames ["bz2_codec"; "bz2-codec"], (None, Some (3, 2)));
    (EncSubstr "bz2", (None, Some (3, 4)));
    (EncNames ["hex_codec"; "hex-codec"], (None, Some (3, 2)));
    (EncSubstr "hex", (None, Some (3, 4)));
    (EncNames ["quopri_codec"; "quopri-codec"], (None, Some (3, 2)));
    (EncNames ["quopri"; "quotedprintable"; "quoted_printable"; "quoted-printable"], (None, Some (3, 4)));
    (EncNames ["uu_codec"; "uu-codec"], (None, Some (3, 2)));
    (EncSubstr "uu", (None, Some (3, 4)));
    (EncNames ["zip_codec"; "zip-codec"], (None, Some (3, 2)));
    (EncNames ["zip"; "zlib"], (None, Some (3, 4)));
    (EncNames ["rot_13"; "rot-13"], (None, Some (3, 2)));
    (EncSubstr "rot13", (None, Some (3, 4))) ].

(** rules.py:3851-3865 [CODECS_ENCODINGS_INDICES]. *)
Definition codecs_encodings_indices : list (string * list nat) :=
  [ ("codecs.encode", [1]%nat);
    ("codecs.decode", [1]%nat);
    ("codecs.lookup", [0]%nat);
    ("codecs.getencoder", [0]%nat);
    ("codecs.getdecoder", [0]%nat);
    ("codecs.getincrementalencoder", [0]%nat);
    ("codecs.getincrementaldecoder", [0]%nat);
    ("codecs.getreader", [0]%nat);
    ("codecs.getwriter", [0]%nat);
    ("codecs.open", [2]%nat);
    ("codecs.EncodedFile", [1; 2]%nat);
    ("codecs.iterencode", [2]%nat);
    ("codecs.iterdecode", [2]%nat) ].

(** rules.py:3869-3948 [BUILTIN_GENERIC_ANNOTATION_TYPES]. *)
Definition builtin_generic_annotation_types : list string :=
  [ "collections.ChainMap";
    "collections.Counter";
    "collections.OrderedDict";
    "collections.UserDict";
    "collections.UserList";
    "collections.abc.AsyncGenerator";
    "collections.abc.AsyncIterable";
    "collections.abc.AsyncIterator";
    "collections.abc.Awaitable";
    "collections.abc.ByteString";
    "collections.abc.Callable";
    "collections.abc.Collection";
    "collections.abc.Container";
    "collections.abc.Coroutine";
    "collections.abc.Generator";
    "collections.abc.ItemsView";
    "collections.abc.Iterable";
    "collections.abc.Iterator";
    "collections.abc.KeysView";
    "collections.abc.Mapping";
    "collections.abc.MappingView";
    "collections.abc.MutableMapping";
    "collections.abc.MutableSequence";
    "collections.abc.MutableSet";
    "collections.abc.Reversible";
    "collections.abc.Sequence";
    "collections.abc.Set";
    "collections.abc.ValuesView";
    "collections.defaultdict";
    "collections.deque";
    "concurrent.futures.Future";
    "concurrent.futures.thread._WorkItem";
    "contextlib.AbstractAsyncContextManager";
    "contextlib.AbstractContextManager";
    "contextvars.ContextVar";
    "contextvars.Token";
    "ctypes.Array";
    "ctypes.LibraryLoader";
    "dataclasses.Field";
    "dict";
    "difflib.SequenceMatcher";
    "enumerate";
    "filecmp.dircmp";
    "fileinput.FileInput";
    "frozenset";
    "functools.cached_property";
    "functools.partial";
    "functools.partialmethod";
    "graphlib.TopologicalSorter";
    "http.cookies.Morsel";
    "itertools.chain";
    "list";
    "logging.LoggerAdapter";
    "logging.StreamHandler";
    "mailbox.Mailbox";
    "mailbox._PartialFile";
    "multiprocessing.managers.ValueProxy";
    "multiprocessing.pool.ApplyResult";
    "multiprocessing.queues.SimpleQueue";
    "multiprocessing.shared_memory.ShareableList";
    "os.DirEntry";
    "queue.Queue";
    "queue.SimpleQueue";
    "re.Match";
    "re.Pattern";
    "set";
    "tempfile.SpooledTemporaryFile";
    "tempfile.TemporaryDirectory";
    "tuple";
    "type";
    "types.AsyncGeneratorType";
    "types.MappingProxyType";
    "unittest.case._AssertRaisesContext";
    "urllib.parse.ParseResult";
    "urllib.parse.SplitResult";
    "weakref.ReferenceType";
    "weakref.WeakSet";
    "weakref.ref" ].

(** rules.py:3951-3961 [DICT_UNION_SUPPORTED_TYPES]. *)
Definition dict_union_supported_types : list string :=
  [ "collections.ChainMap";
    "collections.OrderedDict";
    "collections.UserDict";
    "collections.defaultdict";
    "os.environ";
    "os.environb";
    "types.MappingProxyType";
    "weakref.WeakKeyDictionary";
    "weakref.WeakValueDictionary" ].

(** rules.py:3964-3973 [DICT_UNION_MERGE_SUPPORTED_TYPES]. *)
Definition dict_union_merge_supported_types : list string :=
  [ "collections.ChainMap";
    "collections.OrderedDict";
    "collections.UserDict";
    "collections.defaultdict";
    "os.environ";
    "os.environb";
    "weakref.WeakKeyDictionary";
    "weakref.WeakValueDictionary" ].

(** backports.py:9-32 [BACKPORTS]: name, link, minimum versions. *)
Definition backports_table : list (string * string * mins) :=
  [ ("argparse", "https://pypi.org/project/argparse/", (Some (2, 3), Some (3, 1)));
    ("asyncio", "https://pypi.org/project/asyncio/", (None, Some (3, 3)));
    ("configparser", "https://pypi.org/project/configparser/", (Some (2, 6), Some (3, 0)));
    ("contextvars", "https://pypi.org/project/contextvars/", (None, Some (3, 5)));
    ("dataclasses", "https://pypi.org/project/dataclasses/", (None, Some (3, 6)));
    ("enum", "https://pypi.org/project/enum34/", (Some (2, 4), Some (3, 3)));
    ("faulthandler", "https://pypi.org/project/faulthandler/", (Some (2, 6), Some (3, 0)));
    ("importlib", "https://pypi.org/project/importlib/", (Some (2, 3), Some (3, 0)));
    ("ipaddress", "https://pypi.org/project/ipaddress/", (Some (2, 6), Some (3, 2)));
    ("mock", "https://pypi.org/project/mock/", (None, Some (3, 6)));
    ("statistics", "https://pypi.org/project/statistics/", (Some (2, 6), Some (3, 4)));
    ("typing", "https://pypi.org/project/typing/", (Some (2, 7), Some (3, 2)));
    ("typing_extensions==4.0", "https://pypi.org/project/typing-extensions/4.0.0/", (None, Some (3, 6)));
    ("typing_extensions==4.3", "https://pypi.org/project/typing-extensions/4.3.0/", (None, Some (3, 7)));
    ("typing_extensions", "https://pypi.org/project/typing-extensions/4.3.0/", (None, Some (3, 7)));
    ("zoneinfo", "https://pypi.org/project/backports.zoneinfo/", (None, Some (3, 6))) ].

(** features.py:3-12 [FEATURES]. *)
Definition features_table : list (string * list string) :=
  [ ("fstring-self-doc", ["[Unstable] Detect self-documenting fstrings. Can in"; "some cases wrongly report fstrings as self-documenting."]);
    ("union-types", ["[Unstable] Detect union types `X | Y`. Can in some cases"; "wrongly report union types due to having to employ heuristics."]) ].

(** formats/__init__.py:6-15 [FORMATS]. *)
Definition formats_table : list (string * list string) :=
  [ ("default", ["Default formatting."]);
    ("parsable", ["Each result is on form 'file:line:column:py2:py3:feature'. The"; "last line has no path or line/column numbers and contains the"; "minimum py2 and py3 versions. Minimum verbosity level is set to"; "3 but can be increased. Tips, hints, incompatible versions, and"; "`--versions` are disabled. File paths containing ':' are ignored."]) ].

(** detection.py:11-425 [NOT_PY_CODE_EXTS]. *)
Definition not_py_code_exts : list string :=
  [ "3dm";
    "3ds";
    "3g2";
    "3gp";
    "7z";
    "8svx";
    "DS_Store";
    "a";
    "aac";
    "ac";
    "adp";
    "aff";
    "ai";
    "aif";
    "aifc";
    "aiff";
    "aix";
    "alz";
    "am";
    "ape";
    "apk";
    "applescript";
    "ar";
    "arj";
    "as";
    "asf";
    "asm";
    "au";
    "avi";
    "bak";
    "baml";
    "bh";
    "bin";
    "bk";
    "bmp";
    "btif";
    "bz2";
    "bzip2";
    "c";
    "cab";
    "caf";
    "cat";
    "cc";
    "cdxml";
    "cfg";
    "cgm";
    "cl";
    "class";
    "cmx";
    "cnf";
    "coffee";
    "conf";
    "coverity";
    "cpio";
    "cpp";
    "cr2";
    "crt";
    "cs";
    "css";
    "css_t";
    "csv";
    "cur";
    "cxx";
    "d";
    "dart";
    "dat";
    "dcm";
    "deb";
    "dectest";
    "dex";
    "dic";
    "dict";
    "djvu";
    "dll";
    "dmg";
    "dng";
    "doc";
    "docm";
    "docx";
    "dot";
    "dotm";
    "dra";
    "dsk";
    "dsp";
    "dts";
    "dtshd";
    "dvb";
    "dwg";
    "dxf";
    "ebnf";
    "ecelp4800";
    "ecelp7470";
    "ecelp9600";
    "egg";
    "el";
    "elc";
    "eol";
    "eot";
    "epub";
    "erl";
    "es";
    "exe";
    "exr";
    "ext";
    "f";
    "f4v";
    "f90";
    "fasl";
    "fbs";
    "fh";
    "fla";
    "flac";
    "fli";
    "flv";
    "for";
    "fpx";
    "fs";
    "fsi";
    "fsscript";
    "fst";
    "fsx";
    "fvt";
    "g3";
    "gh";
    "gif";
    "go";
    "graffle";
    "gz";
    "gzip";
    "h";
    "h261";
    "h263";
    "h264";
    "hdr";
    "hdx";
    "hh";
    "hpp";
    "hrl";
    "hs";
    "html";
    "hxx";
    "i";
    "icns";
    "ico";
    "idl";
    "idx";
    "ief";
    "img";
    "ini";
    "ipa";
    "iso";
    "jar";
    "java";
    "jl";
    "jpeg";
    "jpg";
    "jpgv";
    "jpm";
    "js";
    "json";
    "jxr";
    "key";
    "kt";
    "kts";
    "ktx";
    "l";
    "latex";
    "lha";
    "lhs";
    "lib";
    "lisp";
    "litcoffee";
    "lsp";
    "lua";
    "lvp";
    "lz";
    "lzh";
    "lzma";
    "lzo";
    "m";
    "m3u";
    "m4";
    "m4a";
    "m4v";
    "mak";
    "man";
    "mar";
    "md";
    "mdi";
    "mht";
    "mid";
    "midi";
    "mj2";
    "mka";
    "mkv";
    "ml";
    "mli";
    "mm";
    "mmr";
    "mng";
    "mobi";
    "mov";
    "movie";
    "mp3";
    "mp4";
    "mp4a";
    "mpeg";
    "mpg";
    "mpga";
    "mxu";
    "nasm";
    "nb";
    "nef";
    "nib";
    "npx";
    "nsi";
    "nsis";
    "numbers";
    "nupkg";
    "nuspec";
    "o";
    "oga";
    "ogg";
    "ogv";
    "otf";
    "pack";
    "pages";
    "pbm";
    "pcx";
    "pdb";
    "pdf";
    "pea";
    "pem";
    "pgm";
    "phar";
    "php";
    "php-s";
    "php3";
    "php4";
    "php5";
    "php7";
    "phps";
    "pht";
    "phtml";
    "pic";
    "pl";
    "plist";
    "pm";
    "png";
    "pnm";
    "pod";
    "pot";
    "potm";
    "potx";
    "ppa";
    "ppam";
    "ppm";
    "pps";
    "ppsm";
    "ppsx";
    "ppt";
    "pptm";
    "pptx";
    "pro";
    "proj";
    "ps";
    "ps1";
    "ps1xml";
    "psc1";
    "psd";
    "psd1";
    "psm1";
    "pssc";
    "pya";
    "pyc";
    "pyo";
    "pyv";
    "qt";
    "r";
    "rar";
    "ras";
    "raw";
    "rb";
    "rc";
    "rda";
    "rdata";
    "rds";
    "resources";
    "rgb";
    "rip";
    "rlc";
    "rlib";
    "rmf";
    "rmvb";
    "rs";
    "rst";
    "rtf";
    "rz";
    "s";
    "s3m";
    "s7z";
    "sccd";
    "scm";
    "scpt";
    "scptd";
    "scss";
    "sgi";
    "shar";
    "sil";
    "sip";
    "sketch";
    "slk";
    "sln";
    "sml";
    "smv";
    "sndt";
    "snk";
    "so";
    "sql";
    "srl";
    "ss";
    "stl";
    "stp";
    "sub";
    "suo";
    "supp";
    "svg";
    "swf";
    "swift";
    "t";
    "tar";
    "tbc";
    "tbz";
    "tbz2";
    "tcl";
    "tex";
    "tga";
    "tgz";
    "thm";
    "thmx";
    "tif";
    "tiff";
    "tlz";
    "ttc";
    "ttf";
    "txt";
    "txz";
    "udf";
    "ui";
    "utf8";
    "uvh";
    "uvi";
    "uvm";
    "uvp";
    "uvs";
    "uvu";
    "valgrind";
    "vb";
    "vcxproj";
    "viv";
    "vob";
    "voc";
    "war";
    "wasm";
    "wat";
    "wav";
    "wax";
    "wbmp";
    "wdp";
    "weba";
    "webm";
    "webp";
    "whl";
    "wim";
    "wixproj";
    "wl";
    "wm";
    "wma";
    "wmv";
    "wmx";
    "woff";
    "woff2";
    "wpr";
    "wrm";
    "wvx";
    "wxl";
    "wxs";
    "xbm";
    "xhtml";
    "xif";
    "xla";
    "xlam";
    "xls";
    "xlsb";
    "xlsm";
    "xlsx";
    "xlt";
    "xltm";
    "xltx";
    "xm";
    "xmind";
    "xml";
    "xpi";
    "xpm";
    "xs";
    "xsl";
    "xwd";
    "xz";
    "yaml";
    "yml";
    "z";
    "zip";
    "zipx" ].

