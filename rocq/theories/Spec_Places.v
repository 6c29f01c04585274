(** Specification for the positions printed in front of findings (C64). *)
From Verif Require Import PyBase Utility RulesData Rules Config Formats AstKinds Ast State Spec_Base Spec_Utility Spec_Formats
  Spec_MinVersions Spec_Visitor.

(** The classes of nodes that CPython's parser gives no position. *)
Definition unplaced : list kind :=
  [KAdd; KAnd; KBitAnd; KBitOr; KBitXor; KDel; KDiv; KEq; KExpression; KFloorDiv; KFunctionType; KGt; KGtE; KIn; KInteractive;
   KInvert; KIs; KIsNot; KLShift; KLoad; KLt; KLtE; KMatMult; KMod; KModule; KMult; KNot; KNotEq; KNotIn; KOr; KPow; KRShift;
   KStore; KSub; KTypeIgnore; KUAdd; KUSub; Karguments; Kcomprehension; Kmatch_case; Kwithitem].

(** A tree as the parser gives it: every other node has a position, and so has every decorator; lines count
    from 1. *)
Definition placed_tree (v : pyval) : Prop :=
  (forall k u p fs, below (VNode k u p fs) v -> ~ In k unplaced -> p <> None) /\
  (forall n d, below n v -> In d (items "decorator_list" n) -> pos_of d <> None) /\
  (forall n l c, below n v -> pos_of n = Some (l, c) -> 1 <= l).

(** [l] is the line of something in the tree, or the first line. *)
Definition line_of (v : pyval) (l : Z) : Prop := l = 1 \/ exists n c, below n v /\ pos_of n = Some (l, c).

(** A line with a position in the tree, or without one. *)
Definition points_into (e : env) (v : pyval) (line : string) : Prop :=
  exists msg l c r plural, line = format_output_line (e_cfg e) msg (e_path e) l c r plural /\
    forall z, l = Some z -> line_of v z.

(** [n] is where the source uses the text [x], seen at line [l]: an import, a called name, an attribute, a
    literal argument, on its own line; a name raised or caught, and a decorator, on the line of that name.
    As in Spec_Visitor, [imp], [ali] and [asg] are the imported, renamed and assigned names. *)
Definition says (imp ali : string -> string -> Prop) (asg : string -> Prop) (n : pyval) (x : string) (l : Z) : Prop :=
  (lineno n = l /\
   (module_use n x \/ (exists p, imports_from n p x) \/ (isa KCall n /\ is_name x (attr "func" n)) \/
    (isa KAttribute n /\ asg (as_str (attr "attr" n))) \/
    strftime_use n x \/ (exists b, constant (VBytes b) n /\ directive_in (const_text (VBytes b)) x) \/
    typecode_use ali n x \/ handler_use imp ali n (VStr x) \/ encoding_use imp ali n (VStr x))) \/
  ((isa KRaise n \/ isa KExceptHandler n) /\ exists y, below y n /\ is_name x y /\ lineno y = l) \/
  (function_def n /\ exists d, In d (items "decorator_list" n) /\ (isa KName d \/ isa KAttribute d) /\ lineno d = l).
Definition says_st (s : st) : pyval -> string -> Z -> Prop :=
  says (imp_st s) (ali_st s) (fun a => In a (map fst (s_name_res s))).

(** What the whole source imports, renames and assigns to. *)
Definition imported (v : pyval) (x p : string) : Prop := exists n, below n v /\ imports_from n p x.
Definition renamed (v : pyval) (a m : string) : Prop := exists n, below n v /\ aliases n a m.
Definition assigned (v : pyval) (a : string) : Prop := exists n, below n v /\ assigns n a.

(** What was found of the library with what is said of it: the text that was found, the message and the
    versions. Keyword arguments are said of apart: they are kept by function and name. *)
Inductive finding (bps : list string) (s : st) : string -> string -> mins -> Prop :=
| fi_strftime d r : In d (s_strftimes s) -> In (d, r) strftime_reqs -> finding bps s d ("strftime directive '" +++ d +++ "'") r
| fi_bytes d r : In d (s_bytesdirs s) -> In (d, r) bytes_reqs -> finding bps s d ("bytes directive '" +++ d +++ "'") r
| fi_typecode d r : In d (s_typecodes s) -> In (d, r) array_typecode_reqs -> finding bps s d ("array typecode '" +++ d +++ "'") r
| fi_handler n r : In (VStr n) (s_cehs s) -> In (n, r) codecs_error_handlers_reqs ->
    finding bps s n ("codecs error handler name '" +++ n +++ "'") r
| fi_encoding n k r : In (VStr n) (s_cencs s) -> In (k, r) codecs_encodings_reqs -> covers k (lower n) ->
    finding bps s n ("codecs encoding '" +++ n +++ "'") r
| fi_module n r : In n (s_modules s) -> mod_req bps n = Some r -> finding bps s n ("'" +++ n +++ "' module") r
| fi_member n r : In n (s_members s) -> mem_req bps n = Some r -> finding bps s n ("'" +++ n +++ "' member") r
| fi_deco n r : In n (s_ufds s) -> In (n, r) decorator_user_functions ->
    finding bps s n ("'" +++ n +++ "' user function decorator") r.
Definition keyword_finding (bps : list string) (s : st) (msg : string) (r : mins) : Prop :=
  exists f k, In (f, Some k) (s_kwargs s) /\ kwarg_req bps (f, k) = Some r /\ msg = "'" +++ f +++ "(" +++ k +++ ")'".

(** The line says so of [x], at a line where the source uses it. *)
Definition said_where_used (e : env) (v : pyval) (x msg : string) (r : mins) (line : string) : Prop :=
  exists z c n, line = format_output_line (e_cfg e) msg (e_path e) (Some z) c (Some r) None /\
    below n v /\ says (imported v) (renamed v) (assigned v) n x z.

(** Findings with these versions are shown: always, or because a target is older. *)
Definition on_show (c : config) (r : mins) : Prop :=
  c_only_show_violations c = false \/
  c_only_show_violations c = true /\ targets_in_scope (c_targets c) /\ exists x t, In (x, t) (c_targets c) /\ above r t.
