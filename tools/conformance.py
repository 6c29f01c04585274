"""Check the Coq model against the expectations written in /repo/tests.

The test files are read as text (ast.parse); nothing of vermin is imported or run. Calls like
`visitor = self.visit("...")`, `self.detect("...")`, `self.config.xxx(...)` and the assertions about
them are recognised syntactically; the sources are parsed with CPython's ast and tokenize, converted
to terms of the model, and the model's answers computed by coqc are compared with the expectations.

Usage: conformance.py [outdir]
"""
import ast, io, os, re, subprocess, sys, tokenize

OUT = sys.argv[1] if len(sys.argv) > 1 else "/tmp/conf"
THEORIES = os.path.join(os.path.dirname(os.path.abspath(__file__)), "../rocq/theories")
VERSION = sys.version_info[:2]

FLAGS = {
  "printv2": "FPrintV2", "printv3": "FPrintV3", "format27": "FFormat27", "longv2": "FLongV2",
  "bytesv3": "FBytesV3", "fstrings": "FFstrings", "fstrings_self_doc": "FFstringsSelfDoc",
  "bool_const": "FBoolConst", "named_expressions": "FNamedExprs", "annotations": "FAnnotations",
  "var_annotations": "FVarAnnotations", "final_annotations": "FFinalAnnotations",
  "literal_annotations": "FLiteralAnnotations", "coroutines": "FCoroutines",
  "async_generator": "FAsyncGenerator", "async_comprehension": "FAsyncComprehension",
  "await_in_comprehension": "FAwaitInComprehension", "async_for": "FAsyncFor",
  "kw_only_args": "FKwOnlyArgs", "pos_only_args": "FPosOnlyArgs", "nonlocal_stmt": "FNonlocal",
  "yield_from": "FYieldFrom", "raise_cause": "FRaiseCause", "raise_from_none": "FRaiseFromNone",
  "set_literals": "FSetLiterals", "set_comprehension": "FSetComp", "dict_comprehension": "FDictComp",
  "infix_matrix_multiplication": "FMatMult", "continue_in_finally": "FContinueInFinally",
  "modular_inverse_pow": "FModInversePow", "with_statement": "FWith",
  "async_with_statement": "FAsyncWith", "multi_withitem": "FMultiWithitem",
  "with_parentheses": "FWithParens", "generalized_unpacking": "FGenUnpacking",
  "unpacking_assignment": "FUnpackingAssign", "ellipsis_out_of_slices": "FEllipsis",
  "type_alias_statement": "FTypeAlias", "bytes_format": "FBytesFormat",
  "bytearray_format": "FBytearrayFormat", "dict_union": "FDictUnion",
  "dict_union_merge": "FDictUnionMerge", "builtin_generic_type_annotations": "FBuiltinGeneric",
  "function_decorators": "FFuncDecorators", "class_decorators": "FClassDecorators",
  "relaxed_decorators": "FRelaxedDecorators", "module_dir_func": "FModuleDir",
  "module_getattr_func": "FModuleGetattr", "union_types": "FUnionTypes",
  "pattern_matching": "FPatternMatching", "super_no_args": "FSuperNoArgs",
  "maybe_annotations": "FMaybeAnnotations", "metaclass_class_keyword": "FMetaclass",
  "except_star": "FExceptStar",
}
LISTS = {
  "modules": "(map VStr (s_modules s))", "members": "(map VStr (s_members s))",
  "user_defined": "(map VStr (s_user_defs s))", "no_lines": "(map VInt (e_nolines e))",
  "strftime_directives": "(map VStr (s_strftimes s))",
  "bytes_directives": "(map VStr (s_bytesdirs s))",
  "array_typecodes": "(map VStr (s_typecodes s))",
  "codecs_error_handlers": "(s_cehs s)", "codecs_encodings": "(s_cencs s)",
  "user_function_decorators": "(map VStr (s_ufds s))",
  "kwargs": "(map (fun fk => VList [VStr (fst fk); match snd fk with Some k => VStr k | None => VNone end]) (s_kwargs s))",
}

def cstr(s):
  if isinstance(s, str):
    b = s.encode("utf-8", "surrogatepass")
  else:
    b = s
  if all(32 <= c < 127 or c == 10 for c in b):
    return '"' + b.decode().replace('"', '""') + '"'
  return "(bs_ [" + ";".join(str(c) for c in b) + "]%N)"

class Conv:
  def __init__(self, keep=False):
    self.n = 0
    self.ids = {} if keep else None

  def val(self, v):
    if v is None: return "VNone"
    if v is True: return "(VBool true)"
    if v is False: return "(VBool false)"
    if isinstance(v, int): return "(VInt (%d))" % v
    if isinstance(v, float): return "(VFloat %s)" % cstr(repr(v))
    if isinstance(v, complex): return "(VComplex %s)" % cstr(repr(v))
    if isinstance(v, str): return "(VStr %s)" % cstr(v)
    if isinstance(v, bytes): return "(VBytes %s)" % cstr(v)
    if v is Ellipsis: return "VEllipsis"
    if isinstance(v, list): return "(VList [" + "; ".join(self.val(x) for x in v) + "])"
    if isinstance(v, ast.AST):
      self.n += 1
      uid = self.n if self.ids is None else self.ids.setdefault(id(v), self.n)
      pos = "(Some (%d, %d))" % (v.lineno, v.col_offset) if hasattr(v, "lineno") else "None"
      fs = "; ".join("(%s, %s)" % (cstr(f), self.val(x)) for f, x in ast.iter_fields(v))
      return "(VNode K%s %d%%N %s [%s])" % (type(v).__name__, uid, pos, fs)
    raise ValueError(v)

def parsed(src):
  try:
    node = ast.parse(src, filename="<unknown>")
  except SyntaxError as ex:
    return "(PErr (PeSyntax (mkSyn %s %s %s %s %s)))" % (
      "None" if ex.text is None else "(Some %s)" % cstr(ex.text), cstr(ex.msg),
      cstr(str(ex.filename)), cstr(str(ex.lineno)), cstr(str(ex.offset)))
  except ValueError:
    return "(PErr PeValue)"
  return "(PTree %s (inr [%s]))" % (Conv().val(node), "; ".join(tokens(src)))

def tokens(src):
  kinds = {tokenize.STRING: "TkString", tokenize.COMMENT: "TkComment",
           tokenize.NEWLINE: "TkNewline", tokenize.NL: "TkNl"}
  s = src.decode(errors="ignore") if isinstance(src, bytes) else src
  return ["mkTok %s %s %d %d %d" % (kinds.get(t.type, "TkOther"), cstr(t.string), t.start[0], t.start[1], t.end[0])
          for t in tokenize.generate_tokens(io.StringIO(s).readline)]

class Skip(Exception):
  pass

def lit(n, env):
  if isinstance(n, ast.Name) and n.id in env and not isinstance(env[n.id], Case):
    return env[n.id]
  if isinstance(n, ast.BinOp) and isinstance(n.op, ast.Add):
    return lit(n.left, env) + lit(n.right, env)
  if isinstance(n, (ast.Tuple, ast.List)):
    r = [lit(x, env) for x in n.elts]
    return tuple(r) if isinstance(n, ast.Tuple) else r
  if (isinstance(n, ast.Call) and isinstance(n.func, ast.Attribute) and n.func.attr == "format"
      and not n.keywords):
    return lit(n.func.value, env).format(*[lit(a, env) for a in n.args])
  try:
    return ast.literal_eval(n)
  except Exception:
    raise Skip

class Case:
  def __init__(self, name, cfg, src, path):
    self.name, self.cfg, self.src, self.path = name, list(cfg), src, path
    self.checks = []

CASES = []

def is_self_call(n, names):
  return (isinstance(n, ast.Call) and isinstance(n.func, ast.Attribute)
          and isinstance(n.func.value, ast.Name) and n.func.value.id == "self"
          and n.func.attr in names)

def cfg_cmd(m, args):
  b = lambda x: "true" if x else "false"
  a = args[0] if args else None
  table = {
    "set_quiet": lambda: "CmdQuiet " + b(a), "set_verbose": lambda: "CmdVerbose (%d)" % a,
    "set_pessimistic": lambda: "CmdPessimistic " + b(a),
    "set_ignore_incomp": lambda: "CmdIgnoreIncomp " + b(a),
    "add_exclusion": lambda: "CmdAddExclusion " + cstr(a),
    "clear_exclusions": lambda: "CmdClearExclusions",
    "add_backport": lambda: "CmdAddBackport " + cstr(a),
    "clear_backports": lambda: "CmdClearBackports",
    "enable_feature": lambda: "CmdEnableFeature " + cstr(a),
    "clear_features": lambda: "CmdClearFeatures",
    "set_eval_annotations": lambda: "CmdEvalAnnotations " + b(a),
    "set_only_show_violations": lambda: "CmdViolations " + b(a),
    "set_parse_comments": lambda: "CmdParseComments " + b(a),
    "clear_targets": lambda: "CmdClearTargets", "reset": lambda: "CmdReset",
    "add_target": lambda: ("CmdAddTarget (TStr %s)" % cstr(a)) if isinstance(a, str)
                  else "CmdAddTarget (TTup (%d, %d) false)" % a,
  }
  if m not in table:
    raise Skip
  return table[m]()

class Interp:
  def __init__(self, name, cfg):
    self.name, self.cfg, self.env = name, list(cfg), {}
    self.dead = False

  def case(self, n):
    if isinstance(n, ast.Name) and isinstance(self.env.get(n.id), Case):
      return self.env[n.id]
    if is_self_call(n, ("visit", "detect")):
      src = lit(n.args[0], self.env)
      path = None
      for kw in n.keywords:
        if kw.arg == "path": path = lit(kw.value, self.env)
      if len(n.args) > 1: path = lit(n.args[1], self.env)
      c = Case("%s:%d" % (self.name, n.lineno), self.cfg, src, path)
      CASES.append(c)
      return c
    return None

  def subject(self, n):
    """A queried value: (case, kind)."""
    if isinstance(n, ast.Call) and isinstance(n.func, ast.Attribute) and not n.args:
      c = self.case(n.func.value)
      if c is not None:
        return c, n.func.attr
    c = self.case(n)
    if c is not None:
      return c, "minimum_versions"
    return None

  def cond(self, t):
    def ver(n):
      if isinstance(n, ast.Name) and self.env.get(n.id) == "VERSION": return VERSION
      if isinstance(n, ast.Call) and isinstance(n.func, ast.Name) and n.func.id == "current_version":
        return VERSION
      return lit(n, self.env)
    if isinstance(t, ast.Compare):
      vals = [ver(t.left)] + [ver(c) for c in t.comparators]
      ok = True
      for a, o, b in zip(vals, t.ops, vals[1:]):
        a, b = tuple(a), tuple(b)
        ok = ok and {ast.GtE: a >= b, ast.Gt: a > b, ast.LtE: a <= b, ast.Lt: a < b,
                     ast.Eq: a == b, ast.NotEq: a != b}[type(o)]
      return ok
    raise Skip

  def run(self, body):
    for st in body:
      try:
        self.stmt(st)
      except Skip:
        pass

  def stmt(self, st):
    if isinstance(st, ast.If):
      self.run(st.body if self.cond(st.test) else st.orelse)
    elif isinstance(st, ast.For) and isinstance(st.target, (ast.Name, ast.Tuple)):
      for v in lit(st.iter, self.env):
        if isinstance(st.target, ast.Name):
          self.env[st.target.id] = v
        else:
          for t, x in zip(st.target.elts, v): self.env[t.id] = x
        self.run(st.body)
    elif isinstance(st, ast.With):
      self.run(st.body)
    elif isinstance(st, ast.Assign) and len(st.targets) == 1 and isinstance(st.targets[0], ast.Name):
      n = st.targets[0].id
      self.env.pop(n, None)
      if isinstance(st.value, ast.Call) and isinstance(st.value.func, ast.Name) \
         and st.value.func.id == "current_version":
        self.env[n] = "VERSION"
        return
      c = self.case(st.value)
      if c is None and isinstance(st.value, ast.List): return  # may be mutated later
      self.env[n] = c if c is not None else lit(st.value, self.env)
    elif isinstance(st, ast.Expr) and isinstance(st.value, ast.Call):
      self.call(st.value)

  def call(self, n):
    f = n.func
    if (isinstance(f, ast.Attribute) and isinstance(f.value, ast.Attribute)
        and f.value.attr == "config"):
      try:
        self.cfg.append(cfg_cmd(f.attr, [lit(a, self.env) for a in n.args]))
      except Skip:
        self.cfg.append("UNSUPPORTED")
      return
    if is_self_call(n, ("visit", "detect")):
      self.case(n)
      return
    if not isinstance(f, ast.Attribute):
      raise Skip
    name = f.attr
    if name in ("assertTrue", "assertFalse"):
      a = n.args[0]
      if (isinstance(a, ast.Call) and isinstance(a.func, ast.Attribute)
          and isinstance(a.func.value, ast.Attribute) and a.func.value.attr == "config"):
        self.call(a)
        return
      s = self.subject(n.args[0])
      if s and s[1] in FLAGS:
        s[0].checks.append(("flag", s[1], name == "assertTrue", n.lineno))
    elif name in ("assertOnlyIn", "assertDetectMinVersions"):
      a, b = n.args[0], n.args[1]
      if name == "assertDetectMinVersions":
        src = lit(a, self.env)
        c = Case("%s:%d" % (self.name, n.lineno), self.cfg, src, None)
        CASES.append(c)
        c.checks.append(("onlyin", None, lit(b, self.env), n.lineno))
        return
      s = self.subject(b)
      if s and s[1] == "minimum_versions":
        s[0].checks.append(("onlyin", None, lit(a, self.env), n.lineno))
      elif s and s[1] in LISTS:
        s[0].checks.append(("listonly", s[1], lit(a, self.env), n.lineno))
    elif name == "assertEqual":
      for a, b in ((n.args[0], n.args[1]), (n.args[1], n.args[0])):
        s = self.subject(b)
        if s:
          kind = s[1]
          if kind == "minimum_versions":
            s[0].checks.append(("eq", None, lit(a, self.env), n.lineno))
          elif kind == "output_text":
            s[0].checks.append(("text", None, lit(a, self.env), n.lineno))
          elif kind in LISTS:
            s[0].checks.append(("listeq", kind, lit(a, self.env), n.lineno))
          return
    elif name in ("assertIn", "assertNotIn"):
      s = self.subject(n.args[1])
      if s and s[1] in LISTS:
        s[0].checks.append(("in" if name == "assertIn" else "notin", s[1], lit(n.args[0], self.env), n.lineno))
      elif s and s[1] == "minimum_versions" and name == "assertIn":
        s[0].checks.append(("minin", None, lit(n.args[0], self.env), n.lineno))
    elif name == "assertEmpty":
      s = self.subject(n.args[0])
      if s and s[1] in LISTS:
        s[0].checks.append(("listeq", s[1], [], n.lineno))
      elif s and s[1] == "output_text":
        s[0].checks.append(("text", None, "", n.lineno))
    elif name == "assertEqualItems":
      s = self.subject(n.args[1])
      if s and s[1] in LISTS:
        s[0].checks.append(("listset", s[1], lit(n.args[0], self.env), n.lineno))

def collect():
  d = "/repo/tests"
  for fn in sorted(os.listdir(d)):
    if not fn.endswith(".py") or fn in ("testutils.py", "config.py", "arguments.py"):
      continue
    tree = ast.parse(open(os.path.join(d, fn), encoding="utf-8").read())
    for cls in tree.body:
      if not isinstance(cls, ast.ClassDef): continue
      base = []
      for m in cls.body:
        if isinstance(m, ast.FunctionDef) and m.name == "setUp":
          it = Interp(fn, [])
          it.run(m.body)
          base = it.cfg
      for m in cls.body:
        if not isinstance(m, ast.FunctionDef) or not m.name.startswith("test"): continue
        ok, params = True, [()]
        for d_ in m.decorator_list:
          if isinstance(d_, ast.Call) and isinstance(d_.func, ast.Attribute):
            if d_.func.attr == "skipUnlessVersion":
              v = tuple(a.value for a in d_.args)
              if VERSION < v: ok = False
            elif d_.func.attr == "parameterized_args":
              try:
                params = lit(d_.args[0], {})
              except Skip:
                ok = False
            else:
              ok = False
        if not ok: continue
        for p in params:
          it = Interp("%s:%s" % (fn, m.name), base)
          for a, v in zip(m.args.args[1:], p): it.env[a.arg] = v
          it.run(m.body)

PRE = """From Verif Require Import PyBase Utility RulesData Rules Config Formats Paths AstKinds Ast State Visitor
  Fstring MinVersions Parser Processor.
Definition bs_ (l : list N) : string := List.fold_right (fun n s => String (Ascii.ascii_of_N n) s) EmptyString l.
Definition HH : hooks := mkHooks selfdoc (fun _ => "DUMP").
Fixpoint pv_eqb (a b : pyval) {struct a} : bool :=
  match a, b with
  | VNone, VNone => true | VBool x, VBool y => Bool.eqb x y | VInt x, VInt y => Z.eqb x y
  | VFloat x, VFloat y => String.eqb x y | VStr x, VStr y => String.eqb x y | VBytes x, VBytes y => String.eqb x y
  | VList x, VList y => (fix go x y := match x, y with [], [] => true | p :: r, q :: t => pv_eqb p q && go r t | _, _ => false end) x y
  | _, _ => false end.
Definition pv_in v l := existsb (pv_eqb v) l.
Definition pv_eql x y := pv_eqb (VList x) (VList y).
Definition pv_setl x y := forallb (fun v => pv_in v y) x && forallb (fun v => pv_in v x) y && (List.length x =? List.length y)%nat.
Definition is_unk (o : option ver) : bool := match o with None => true | Some v => veqb v (0,0) end.
Definition only_in (vs : list ver) (m : mins) : bool :=
  let l := [fst m; snd m] in
  (List.length (filter (fun o => negb (is_unk o)) l) =? List.length vs)%nat &&
  forallb (fun v => existsb (fun o => match o with Some w => veqb v w | None => false end) l) vs.
Definition min_in (v : option ver) (m : mins) : bool := ver_eqb_opt v (fst m) || ver_eqb_opt v (snd m).
Definition chk (c : list cmd) (path : option string) (src : string) (p : parsed)
   (f : mins -> bool) (g : env -> st -> list bool) : list bool :=
  let cf := run_cmds 4 (fun _ => true) c (default_config 4) in
  match api_visit HH 3 cf path src p with
  | Err x => [false; false; false]
  | Ok (inl m) => [f m]
  | Ok (inr (e, s)) =>
     match minimum_versions e s with
     | Ok (m, s') => f m :: g e s'
     | Err _ => [false; false]
     end
  end.
"""

def ver(v):
  if v is None: return "None"
  return "(Some (%d, %d))" % tuple(v)

def emit(c):
  f, g, names = [], [], []
  for kind, what, val, line in c.checks:
    if kind == "onlyin":
      vs = [val] if all(isinstance(x, int) for x in val) else list(val)
      f.append("only_in [%s] m" % "; ".join("(%d,%d)" % tuple(v) for v in vs if v is not None))
      if any(v is None for v in vs): f.append("min_in None m")
    elif kind == "eq":
      f.append("mins_eqb (%s, %s) m" % (ver(val[0]), ver(val[1])))
    elif kind == "minin":
      f.append("min_in %s m" % ver(val))
    elif kind == "flag":
      g.append("Bool.eqb (has_flag s %s) %s" % (FLAGS[what], "true" if val else "false"))
      names.append(what)
    elif kind == "text":
      g.append("String.eqb (output_text e s) %s" % cstr(val)); names.append("text")
    else:
      val_ = list(val) if isinstance(val, (set, frozenset)) else val
      tolist = lambda x: "(%s)" % Conv().val(list(x) if isinstance(x, tuple) else x)
      l = LISTS[what]
      if kind == "in": g.append("pv_in %s %s" % (tolist(val), l))
      elif kind == "notin": g.append("negb (pv_in %s %s)" % (tolist(val), l))
      elif kind == "listeq": g.append("pv_eql [%s] %s" % ("; ".join(tolist(x) for x in val_), l))
      else:
        vals = [val_] if isinstance(val_, (str, int)) else list(val_)
        g.append("pv_setl [%s] %s" % ("; ".join(tolist(x) for x in vals), l))
      names.append(kind + " " + what)
  src = c.src if isinstance(c.src, str) else c.src.decode("utf-8", "ignore")
  return "chk [%s] %s %s %s (fun m => %s) (fun e s => [%s])" % (
    "; ".join(c.cfg), "None" if c.path is None else "(Some %s)" % cstr(c.path), cstr(src),
    parsed(c.src), " && ".join(f) if f else "true", "; ".join(g)), names

def main():
  collect()
  os.makedirs(OUT, exist_ok=True)
  good = [c for c in CASES if c.checks and "UNSUPPORTED" not in c.cfg]
  print("cases", len(CASES), "checked", len(good), "checks", sum(len(c.checks) for c in good))
  files, n = [], 250
  terms = [emit(c) for c in good]
  for i in range(0, len(good), n):
    fn = os.path.join(OUT, "Conf%d.v" % (i // n))
    with open(fn, "w") as fp:
      fp.write(PRE)
      for j, (t, _) in enumerate(terms[i:i + n]):
        fp.write("Definition t%d := %s.\n" % (j, t))
      fp.write("Eval vm_compute in [%s].\n" % "; ".join("t%d" % j for j in range(len(terms[i:i + n]))))
    files.append(fn)
  bad = 0
  for k, fn in enumerate(files):
    p = subprocess.run(["coqc", "-Q", THEORIES, "Verif", fn], capture_output=True, text=True)
    if p.returncode:
      print(fn, p.stderr[:2000]); bad += 1
      continue
    out = p.stdout
    out = out[out.index("=") + 1:out.rindex(":")]
    res = eval(out.strip().replace(";", ",").replace("true", "True").replace("false", "False"))
    for j, r in enumerate(res):
      c = good[k * n + j]
      if not all(r):
        bad += 1
        print("FAIL", c.name, r, terms[k * n + j][1], c.cfg, repr(c.src)[:300], c.checks)
  print("bad", bad)

if __name__ == "__main__":
  main()
