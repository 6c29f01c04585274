(** Model of /repo/vermin/source_state.py: the state of one visit. Record and setters are printed by
    tools/gen_state.py. *)
From Verif Require Import PyBase Utility RulesData Rules Config Formats Paths AstKinds Ast.

(** The boolean attributes that are only ever set (source_state.py:40-106, 109, 148). A state holds
    the list of those that are True. *)
Inductive flag : Set :=
| FPrintV2 | FPrintV3 | FFormat27 | FLongV2 | FBytesV3 | FFstrings | FFstringsSelfDoc | FBoolConst
| FAnnotations | FVarAnnotations | FFinalAnnotations | FLiteralAnnotations | FCoroutines
| FAsyncGenerator | FAsyncComprehension | FAwaitInComprehension | FAsyncFor | FNamedExprs
| FKwOnlyArgs | FPosOnlyArgs | FNonlocal | FYieldFrom | FRaiseCause | FRaiseFromNone | FSetLiterals
| FSetComp | FDictComp | FMatMult | FContinueInFinally | FModInversePow | FWith | FAsyncWith
| FMultiWithitem | FWithParens | FGenUnpacking | FUnpackingAssign | FEllipsis | FTypeAlias
| FBytesFormat | FBytearrayFormat | FDictUnion | FDictUnionMerge | FBuiltinGeneric | FFuncDecorators
| FClassDecorators | FRelaxedDecorators | FPatternMatching | FUnionTypes | FSuperNoArgs
| FExceptStar | FMetaclass
| FModuleDir | FModuleGetattr | FMaybeAnnotations.

Definition flag_eq_dec (a b : flag) : {a = b} + {a <> b}.
Proof. decide equality. Defined.
Definition flag_eqb (a b : flag) : bool := if flag_eq_dec a b then true else false.

(** Keys of line_col_entities (source_state.py:36): names and directives, or (function, keyword).
    Constants that are no str (codecs names) are never looked up there and are left out. *)
Inductive entity : Set :=
| EStr (s : string)
| EKw (f : string) (k : option string).

Definition ostr_eqb (a b : option string) : bool :=
  match a, b with
  | Some x, Some y => String.eqb x y
  | None, None => true
  | _, _ => false
  end.
Definition entity_eqb (a b : entity) : bool :=
  match a, b with
  | EStr x, EStr y => String.eqb x y
  | EKw f k, EKw g l => String.eqb f g && ostr_eqb k l
  | _, _ => false
  end.

Record st : Type := mkSt {
  s_depth : Z;
  s_line : Z;
  s_out : list string;
  s_lcs : list (entity * (Z * option Z));
  s_modules : list string;
  s_members : list string;
  s_flags : list flag;
  s_seen_yield : Z;
  s_seen_await : Z;
  s_seen_for : Z;
  s_seen_while : Z;
  s_try_finally : list (Z * Z);
  s_fns : list string;
  s_kwargs : list (string * option string);
  s_ufds : list string;
  s_strftimes : list string;
  s_bytesdirs : list string;
  s_cehs : list pyval;
  s_cencs : list pyval;
  s_typecodes : list string;
  s_import_mem_mod : list (string * string);
  s_name_res : list (string * string);
  s_name_res_type : list (string * list string);
  s_user_defs : list string;
  s_module_as_name : list (string * string);
  s_ellipsis : list N;
  s_info : refs_t
}.

(** source_state.py:28: attribute replaced. *)
Definition u_depth (x : Z) (s : st) : st :=
  mkSt x (s_line s) (s_out s) (s_lcs s) (s_modules s) (s_members s) (s_flags s) (s_seen_yield s) (s_seen_await s) (s_seen_for s) (s_seen_while s) (s_try_finally s) (s_fns s) (s_kwargs s) (s_ufds s) (s_strftimes s) (s_bytesdirs s) (s_cehs s) (s_cencs s) (s_typecodes s) (s_import_mem_mod s) (s_name_res s) (s_name_res_type s) (s_user_defs s) (s_module_as_name s) (s_ellipsis s) (s_info s).
(** source_state.py:29: attribute replaced. *)
Definition u_line (x : Z) (s : st) : st :=
  mkSt (s_depth s) x (s_out s) (s_lcs s) (s_modules s) (s_members s) (s_flags s) (s_seen_yield s) (s_seen_await s) (s_seen_for s) (s_seen_while s) (s_try_finally s) (s_fns s) (s_kwargs s) (s_ufds s) (s_strftimes s) (s_bytesdirs s) (s_cehs s) (s_cencs s) (s_typecodes s) (s_import_mem_mod s) (s_name_res s) (s_name_res_type s) (s_user_defs s) (s_module_as_name s) (s_ellipsis s) (s_info s).
(** source_state.py:33: attribute replaced. *)
Definition u_out (x : list string) (s : st) : st :=
  mkSt (s_depth s) (s_line s) x (s_lcs s) (s_modules s) (s_members s) (s_flags s) (s_seen_yield s) (s_seen_await s) (s_seen_for s) (s_seen_while s) (s_try_finally s) (s_fns s) (s_kwargs s) (s_ufds s) (s_strftimes s) (s_bytesdirs s) (s_cehs s) (s_cencs s) (s_typecodes s) (s_import_mem_mod s) (s_name_res s) (s_name_res_type s) (s_user_defs s) (s_module_as_name s) (s_ellipsis s) (s_info s).
(** source_state.py:36: attribute replaced. *)
Definition u_lcs (x : list (entity * (Z * option Z))) (s : st) : st :=
  mkSt (s_depth s) (s_line s) (s_out s) x (s_modules s) (s_members s) (s_flags s) (s_seen_yield s) (s_seen_await s) (s_seen_for s) (s_seen_while s) (s_try_finally s) (s_fns s) (s_kwargs s) (s_ufds s) (s_strftimes s) (s_bytesdirs s) (s_cehs s) (s_cencs s) (s_typecodes s) (s_import_mem_mod s) (s_name_res s) (s_name_res_type s) (s_user_defs s) (s_module_as_name s) (s_ellipsis s) (s_info s).
(** source_state.py:38: attribute replaced. *)
Definition u_modules (x : list string) (s : st) : st :=
  mkSt (s_depth s) (s_line s) (s_out s) (s_lcs s) x (s_members s) (s_flags s) (s_seen_yield s) (s_seen_await s) (s_seen_for s) (s_seen_while s) (s_try_finally s) (s_fns s) (s_kwargs s) (s_ufds s) (s_strftimes s) (s_bytesdirs s) (s_cehs s) (s_cencs s) (s_typecodes s) (s_import_mem_mod s) (s_name_res s) (s_name_res_type s) (s_user_defs s) (s_module_as_name s) (s_ellipsis s) (s_info s).
(** source_state.py:39: attribute replaced. *)
Definition u_members (x : list string) (s : st) : st :=
  mkSt (s_depth s) (s_line s) (s_out s) (s_lcs s) (s_modules s) x (s_flags s) (s_seen_yield s) (s_seen_await s) (s_seen_for s) (s_seen_while s) (s_try_finally s) (s_fns s) (s_kwargs s) (s_ufds s) (s_strftimes s) (s_bytesdirs s) (s_cehs s) (s_cencs s) (s_typecodes s) (s_import_mem_mod s) (s_name_res s) (s_name_res_type s) (s_user_defs s) (s_module_as_name s) (s_ellipsis s) (s_info s).
(** source_state.py:40-148: attribute replaced. *)
Definition u_flags (x : list flag) (s : st) : st :=
  mkSt (s_depth s) (s_line s) (s_out s) (s_lcs s) (s_modules s) (s_members s) x (s_seen_yield s) (s_seen_await s) (s_seen_for s) (s_seen_while s) (s_try_finally s) (s_fns s) (s_kwargs s) (s_ufds s) (s_strftimes s) (s_bytesdirs s) (s_cehs s) (s_cencs s) (s_typecodes s) (s_import_mem_mod s) (s_name_res s) (s_name_res_type s) (s_user_defs s) (s_module_as_name s) (s_ellipsis s) (s_info s).
(** source_state.py:56: attribute replaced. *)
Definition u_seen_yield (x : Z) (s : st) : st :=
  mkSt (s_depth s) (s_line s) (s_out s) (s_lcs s) (s_modules s) (s_members s) (s_flags s) x (s_seen_await s) (s_seen_for s) (s_seen_while s) (s_try_finally s) (s_fns s) (s_kwargs s) (s_ufds s) (s_strftimes s) (s_bytesdirs s) (s_cehs s) (s_cencs s) (s_typecodes s) (s_import_mem_mod s) (s_name_res s) (s_name_res_type s) (s_user_defs s) (s_module_as_name s) (s_ellipsis s) (s_info s).
(** source_state.py:57: attribute replaced. *)
Definition u_seen_await (x : Z) (s : st) : st :=
  mkSt (s_depth s) (s_line s) (s_out s) (s_lcs s) (s_modules s) (s_members s) (s_flags s) (s_seen_yield s) x (s_seen_for s) (s_seen_while s) (s_try_finally s) (s_fns s) (s_kwargs s) (s_ufds s) (s_strftimes s) (s_bytesdirs s) (s_cehs s) (s_cencs s) (s_typecodes s) (s_import_mem_mod s) (s_name_res s) (s_name_res_type s) (s_user_defs s) (s_module_as_name s) (s_ellipsis s) (s_info s).
(** source_state.py:71: attribute replaced. *)
Definition u_seen_for (x : Z) (s : st) : st :=
  mkSt (s_depth s) (s_line s) (s_out s) (s_lcs s) (s_modules s) (s_members s) (s_flags s) (s_seen_yield s) (s_seen_await s) x (s_seen_while s) (s_try_finally s) (s_fns s) (s_kwargs s) (s_ufds s) (s_strftimes s) (s_bytesdirs s) (s_cehs s) (s_cencs s) (s_typecodes s) (s_import_mem_mod s) (s_name_res s) (s_name_res_type s) (s_user_defs s) (s_module_as_name s) (s_ellipsis s) (s_info s).
(** source_state.py:72: attribute replaced. *)
Definition u_seen_while (x : Z) (s : st) : st :=
  mkSt (s_depth s) (s_line s) (s_out s) (s_lcs s) (s_modules s) (s_members s) (s_flags s) (s_seen_yield s) (s_seen_await s) (s_seen_for s) x (s_try_finally s) (s_fns s) (s_kwargs s) (s_ufds s) (s_strftimes s) (s_bytesdirs s) (s_cehs s) (s_cencs s) (s_typecodes s) (s_import_mem_mod s) (s_name_res s) (s_name_res_type s) (s_user_defs s) (s_module_as_name s) (s_ellipsis s) (s_info s).
(** source_state.py:73: attribute replaced. *)
Definition u_try_finally (x : list (Z * Z)) (s : st) : st :=
  mkSt (s_depth s) (s_line s) (s_out s) (s_lcs s) (s_modules s) (s_members s) (s_flags s) (s_seen_yield s) (s_seen_await s) (s_seen_for s) (s_seen_while s) x (s_fns s) (s_kwargs s) (s_ufds s) (s_strftimes s) (s_bytesdirs s) (s_cehs s) (s_cencs s) (s_typecodes s) (s_import_mem_mod s) (s_name_res s) (s_name_res_type s) (s_user_defs s) (s_module_as_name s) (s_ellipsis s) (s_info s).
(** source_state.py:75-76: attribute replaced. *)
Definition u_fns (x : list string) (s : st) : st :=
  mkSt (s_depth s) (s_line s) (s_out s) (s_lcs s) (s_modules s) (s_members s) (s_flags s) (s_seen_yield s) (s_seen_await s) (s_seen_for s) (s_seen_while s) (s_try_finally s) x (s_kwargs s) (s_ufds s) (s_strftimes s) (s_bytesdirs s) (s_cehs s) (s_cencs s) (s_typecodes s) (s_import_mem_mod s) (s_name_res s) (s_name_res_type s) (s_user_defs s) (s_module_as_name s) (s_ellipsis s) (s_info s).
(** source_state.py:77: attribute replaced. *)
Definition u_kwargs (x : list (string * option string)) (s : st) : st :=
  mkSt (s_depth s) (s_line s) (s_out s) (s_lcs s) (s_modules s) (s_members s) (s_flags s) (s_seen_yield s) (s_seen_await s) (s_seen_for s) (s_seen_while s) (s_try_finally s) (s_fns s) x (s_ufds s) (s_strftimes s) (s_bytesdirs s) (s_cehs s) (s_cencs s) (s_typecodes s) (s_import_mem_mod s) (s_name_res s) (s_name_res_type s) (s_user_defs s) (s_module_as_name s) (s_ellipsis s) (s_info s).
(** source_state.py:78: attribute replaced. *)
Definition u_ufds (x : list string) (s : st) : st :=
  mkSt (s_depth s) (s_line s) (s_out s) (s_lcs s) (s_modules s) (s_members s) (s_flags s) (s_seen_yield s) (s_seen_await s) (s_seen_for s) (s_seen_while s) (s_try_finally s) (s_fns s) (s_kwargs s) x (s_strftimes s) (s_bytesdirs s) (s_cehs s) (s_cencs s) (s_typecodes s) (s_import_mem_mod s) (s_name_res s) (s_name_res_type s) (s_user_defs s) (s_module_as_name s) (s_ellipsis s) (s_info s).
(** source_state.py:79: attribute replaced. *)
Definition u_strftimes (x : list string) (s : st) : st :=
  mkSt (s_depth s) (s_line s) (s_out s) (s_lcs s) (s_modules s) (s_members s) (s_flags s) (s_seen_yield s) (s_seen_await s) (s_seen_for s) (s_seen_while s) (s_try_finally s) (s_fns s) (s_kwargs s) (s_ufds s) x (s_bytesdirs s) (s_cehs s) (s_cencs s) (s_typecodes s) (s_import_mem_mod s) (s_name_res s) (s_name_res_type s) (s_user_defs s) (s_module_as_name s) (s_ellipsis s) (s_info s).
(** source_state.py:80: attribute replaced. *)
Definition u_bytesdirs (x : list string) (s : st) : st :=
  mkSt (s_depth s) (s_line s) (s_out s) (s_lcs s) (s_modules s) (s_members s) (s_flags s) (s_seen_yield s) (s_seen_await s) (s_seen_for s) (s_seen_while s) (s_try_finally s) (s_fns s) (s_kwargs s) (s_ufds s) (s_strftimes s) x (s_cehs s) (s_cencs s) (s_typecodes s) (s_import_mem_mod s) (s_name_res s) (s_name_res_type s) (s_user_defs s) (s_module_as_name s) (s_ellipsis s) (s_info s).
(** source_state.py:81: attribute replaced. *)
Definition u_cehs (x : list pyval) (s : st) : st :=
  mkSt (s_depth s) (s_line s) (s_out s) (s_lcs s) (s_modules s) (s_members s) (s_flags s) (s_seen_yield s) (s_seen_await s) (s_seen_for s) (s_seen_while s) (s_try_finally s) (s_fns s) (s_kwargs s) (s_ufds s) (s_strftimes s) (s_bytesdirs s) x (s_cencs s) (s_typecodes s) (s_import_mem_mod s) (s_name_res s) (s_name_res_type s) (s_user_defs s) (s_module_as_name s) (s_ellipsis s) (s_info s).
(** source_state.py:82: attribute replaced. *)
Definition u_cencs (x : list pyval) (s : st) : st :=
  mkSt (s_depth s) (s_line s) (s_out s) (s_lcs s) (s_modules s) (s_members s) (s_flags s) (s_seen_yield s) (s_seen_await s) (s_seen_for s) (s_seen_while s) (s_try_finally s) (s_fns s) (s_kwargs s) (s_ufds s) (s_strftimes s) (s_bytesdirs s) (s_cehs s) x (s_typecodes s) (s_import_mem_mod s) (s_name_res s) (s_name_res_type s) (s_user_defs s) (s_module_as_name s) (s_ellipsis s) (s_info s).
(** source_state.py:124: attribute replaced. *)
Definition u_typecodes (x : list string) (s : st) : st :=
  mkSt (s_depth s) (s_line s) (s_out s) (s_lcs s) (s_modules s) (s_members s) (s_flags s) (s_seen_yield s) (s_seen_await s) (s_seen_for s) (s_seen_while s) (s_try_finally s) (s_fns s) (s_kwargs s) (s_ufds s) (s_strftimes s) (s_bytesdirs s) (s_cehs s) (s_cencs s) x (s_import_mem_mod s) (s_name_res s) (s_name_res_type s) (s_user_defs s) (s_module_as_name s) (s_ellipsis s) (s_info s).
(** source_state.py:112: attribute replaced. *)
Definition u_import_mem_mod (x : list (string * string)) (s : st) : st :=
  mkSt (s_depth s) (s_line s) (s_out s) (s_lcs s) (s_modules s) (s_members s) (s_flags s) (s_seen_yield s) (s_seen_await s) (s_seen_for s) (s_seen_while s) (s_try_finally s) (s_fns s) (s_kwargs s) (s_ufds s) (s_strftimes s) (s_bytesdirs s) (s_cehs s) (s_cencs s) (s_typecodes s) x (s_name_res s) (s_name_res_type s) (s_user_defs s) (s_module_as_name s) (s_ellipsis s) (s_info s).
(** source_state.py:115: attribute replaced. *)
Definition u_name_res (x : list (string * string)) (s : st) : st :=
  mkSt (s_depth s) (s_line s) (s_out s) (s_lcs s) (s_modules s) (s_members s) (s_flags s) (s_seen_yield s) (s_seen_await s) (s_seen_for s) (s_seen_while s) (s_try_finally s) (s_fns s) (s_kwargs s) (s_ufds s) (s_strftimes s) (s_bytesdirs s) (s_cehs s) (s_cencs s) (s_typecodes s) (s_import_mem_mod s) x (s_name_res_type s) (s_user_defs s) (s_module_as_name s) (s_ellipsis s) (s_info s).
(** source_state.py:118: attribute replaced. *)
Definition u_name_res_type (x : list (string * list string)) (s : st) : st :=
  mkSt (s_depth s) (s_line s) (s_out s) (s_lcs s) (s_modules s) (s_members s) (s_flags s) (s_seen_yield s) (s_seen_await s) (s_seen_for s) (s_seen_while s) (s_try_finally s) (s_fns s) (s_kwargs s) (s_ufds s) (s_strftimes s) (s_bytesdirs s) (s_cehs s) (s_cencs s) (s_typecodes s) (s_import_mem_mod s) (s_name_res s) x (s_user_defs s) (s_module_as_name s) (s_ellipsis s) (s_info s).
(** source_state.py:121: attribute replaced. *)
Definition u_user_defs (x : list string) (s : st) : st :=
  mkSt (s_depth s) (s_line s) (s_out s) (s_lcs s) (s_modules s) (s_members s) (s_flags s) (s_seen_yield s) (s_seen_await s) (s_seen_for s) (s_seen_while s) (s_try_finally s) (s_fns s) (s_kwargs s) (s_ufds s) (s_strftimes s) (s_bytesdirs s) (s_cehs s) (s_cencs s) (s_typecodes s) (s_import_mem_mod s) (s_name_res s) (s_name_res_type s) x (s_module_as_name s) (s_ellipsis s) (s_info s).
(** source_state.py:127: attribute replaced. *)
Definition u_module_as_name (x : list (string * string)) (s : st) : st :=
  mkSt (s_depth s) (s_line s) (s_out s) (s_lcs s) (s_modules s) (s_members s) (s_flags s) (s_seen_yield s) (s_seen_await s) (s_seen_for s) (s_seen_while s) (s_try_finally s) (s_fns s) (s_kwargs s) (s_ufds s) (s_strftimes s) (s_bytesdirs s) (s_cehs s) (s_cencs s) (s_typecodes s) (s_import_mem_mod s) (s_name_res s) (s_name_res_type s) (s_user_defs s) x (s_ellipsis s) (s_info s).
(** source_state.py:145: attribute replaced. *)
Definition u_ellipsis (x : list N) (s : st) : st :=
  mkSt (s_depth s) (s_line s) (s_out s) (s_lcs s) (s_modules s) (s_members s) (s_flags s) (s_seen_yield s) (s_seen_await s) (s_seen_for s) (s_seen_while s) (s_try_finally s) (s_fns s) (s_kwargs s) (s_ufds s) (s_strftimes s) (s_bytesdirs s) (s_cehs s) (s_cencs s) (s_typecodes s) (s_import_mem_mod s) (s_name_res s) (s_name_res_type s) (s_user_defs s) (s_module_as_name s) x (s_info s).
(** source_state.py:142: attribute replaced. *)
Definition u_info (x : refs_t) (s : st) : st :=
  mkSt (s_depth s) (s_line s) (s_out s) (s_lcs s) (s_modules s) (s_members s) (s_flags s) (s_seen_yield s) (s_seen_await s) (s_seen_for s) (s_seen_while s) (s_try_finally s) (s_fns s) (s_kwargs s) (s_ufds s) (s_strftimes s) (s_bytesdirs s) (s_cehs s) (s_cencs s) (s_typecodes s) (s_import_mem_mod s) (s_name_res s) (s_name_res_type s) (s_user_defs s) (s_module_as_name s) (s_ellipsis s) x.

(** source_state.py:28-148: a fresh state. *)
Definition init_st : st :=
  mkSt 0 1 [] [] [] [] [] 0 0 0 0 [] [] [] [] [] [] [] [] [] [] [] [] [] [] [] [].

(** What a visit only reads: the configuration, path and source (source_state.py:12-20), the
    novermin lines (source_visitor.py:567-568), and two functions left open: the text of
    [ast.dump] (standard library, printed under --dump only) and the verdict of the f-string
    self-doc heuristic (source_visitor.py:1505-1522; instantiated in Fstring.v), which reads the
    import aliases. *)
Record env : Type := mkEnv {
  e_cfg : config;
  e_path : string;
  e_source : option string;
  e_nolines : list Z;
  e_selfdoc : list (string * string) -> pyval -> res bool;
  e_dump : pyval -> string
}.

(** source_state.py:26 *)
Definition is_init_file (e : env) : bool := String.eqb (basename (e_path e)) "__init__.py".

(** source_state.py:150-152: rules evaluated for the enabled backports. *)
Definition bps_of (e : env) : list string := c_backports (e_cfg e).

(** source_state.py:102 *)
Definition builtin_types : list string :=
  ["dict"; "set"; "list"; "unicode"; "str"; "int"; "float"; "long"; "bytes"].

(** source_state.py:103 *)
Definition codecs_encodings_kwargs : list string := ["encoding"; "data_encoding"; "file_encoding"].

(** source_state.py:135, 139: the two switchable features. *)
Definition fstring_self_doc_enabled (e : env) : bool := has_feature (e_cfg e) "fstring-self-doc".
Definition union_types_enabled (e : env) : bool := has_feature (e_cfg e) "union-types".
