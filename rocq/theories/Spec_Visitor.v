(** Specifications for the tour of one syntax tree (C34, C37-C44). *)
From Verif Require Import PyBase Utility RulesData Rules Config Paths AstKinds Ast State Spec_Base.

(** ** Trees *)

(** [below n v]: the node [n] occurs in [v], possibly as [v] itself. *)
Inductive below (n : pyval) : pyval -> Prop :=
| below_here : is_node n = true -> below n n
| below_field k u p fs f x : In (f, x) fs -> below n x -> below n (VNode k u p fs)
| below_item l x : In x l -> below n x -> below n (VList l).

(** [scope stops n v]: [n] occurs in [v] with no node of the classes [stops] on the way, except
    directly in a class body. *)
Inductive scope (stops : list kind) (n : pyval) : pyval -> Prop :=
| scope_here : is_node n = true -> scope stops n n
| scope_field k u p fs f x : ~ In k stops -> In (f, x) fs -> scope stops n x -> scope stops n (VNode k u p fs)
| scope_item l x : In x l -> scope stops n x -> scope stops n (VList l)
| scope_member u p fs b f x : In b (flist "body" fs) -> In (f, x) (fields b) -> scope stops n x ->
    scope stops n (VNode KClassDef u p fs).

(** [held stops n v]: the same for a node that is strictly inside [v]. *)
Definition held (stops : list kind) (n v : pyval) : Prop :=
  exists f x, In (f, x) (fields v) /\ scope stops n x.

(** The node is what is subscripted with, or one of the things it is subscripted with. *)
Definition direct_slice (n v : pyval) : Prop :=
  n = attr "slice" v \/ (is_kind KTuple (attr "slice" v) = true /\ In n (as_list (attr "elts" (attr "slice" v)))).

(** [loose n v]: [n] occurs in [v], not directly in a slice. *)
Inductive loose (n : pyval) : pyval -> Prop :=
| loose_here : is_node n = true -> loose n n
| loose_field k u p fs f x : (k = KSubscript -> ~ direct_slice n (VNode k u p fs)) -> In (f, x) fs -> loose n x ->
    loose n (VNode k u p fs)
| loose_item l x : In x l -> loose n x -> loose n (VList l)
| loose_member u p fs b f x : In b (flist "body" fs) -> In (f, x) (fields b) -> loose n x ->
    loose n (VNode KClassDef u p fs).

(** ** Shapes of nodes *)

Definition isa (k : kind) (v : pyval) : Prop := is_kind k v = true.
Definition items (f : string) (v : pyval) : list pyval := as_list (attr f v).
Definition named (n : string) (v : pyval) : Prop := isa KName v /\ attr "id" v = VStr n.
Definition constant (c v : pyval) : Prop := isa KConstant v /\ attr "value" v = c.
Definition calls (n : string) (v : pyval) : Prop := isa KCall v /\ named n (attr "func" v).
Definition function_def (v : pyval) : Prop := isa KFunctionDef v \/ isa KAsyncFunctionDef v.
Definition with_stmt (v : pyval) : Prop := isa KWith v \/ isa KAsyncWith v.

(** An int, or a sign in front of one. *)
Definition int_literal (v : pyval) : Prop :=
  (exists z, constant (VInt z) v) \/ (isa KUnaryOp v /\ exists z, constant (VInt z) (attr "operand" v)).
Definition negative_literal (v : pyval) : Prop :=
  (exists z, constant (VInt z) v /\ z < 0) \/
  (isa KUnaryOp v /\ isa KUSub (attr "op" v) /\ exists z, constant (VInt z) (attr "operand" v)).

(** The None of the language. *)
Definition none_literal (v : pyval) : Prop := named "None" v \/ constant VNone v.

(** [*x] read, [**x] in a call, [**x] in a dict display. *)
Definition star_load (v : pyval) : Prop := isa KStarred v /\ isa KLoad (attr "ctx" v).
Definition double_star (v : pyval) : Prop := attr "arg" v = VNone /\ attr "value" v <> VNone.

(** Something of the list, not at its end. *)
Definition not_last {A} (P : A -> Prop) (l : list A) : Prop := exists a x y b, l = a ++ x :: y :: b /\ P x.

(** An annotation [N] or [N[...]]. *)
Definition annotates (n : string) (ann : pyval) : Prop :=
  named n ann \/ (isa KSubscript ann /\ named n (attr "value" ann)).

(** A name as the language has them: not empty, no dot. *)
Definition identifier (s : string) : Prop := s <> "" /\ forall a b, s <> a +++ "." +++ b.

(** A name written in the node: an attribute or a called name. *)
Definition writes (v : pyval) (n : string) : Prop :=
  (isa KAttribute v /\ as_str (attr "attr" v) = n) \/
  (isa KCall v /\ isa KName (attr "func" v) /\ as_str (attr "id" (attr "func" v)) = n).

(** [Literal] at the end of a dotted name somewhere in an annotation. *)
Definition mentions_literal (ann : pyval) : Prop :=
  annotates "Literal" ann \/
  exists m n, below m ann /\ writes m n /\ (identifier n -> n = "Literal").

(** A variable; a dotted name ending with a name. *)
Definition is_name (n : string) (v : pyval) : Prop := isa KName v /\ as_str (attr "id" v) = n.
Definition ends (d x : string) : Prop := d = x \/ exists a, d = a +++ "." +++ x.

(** [import m]; [from p import x]; a statement that gives the variable [a] a value. *)
Definition imports (n : pyval) (m : string) : Prop :=
  isa KImport n /\ exists a, In a (items "names" n) /\ as_str (attr "name" a) = m.
Definition imports_from (n : pyval) (p x : string) : Prop :=
  isa KImportFrom n /\ attr "module" n = VStr p /\ exists a, In a (items "names" n) /\ as_str (attr "name" a) = x.
Definition assigns (n : pyval) (a : string) : Prop :=
  (isa KAssign n /\ exists t, In t (items "targets" n) /\ is_name a t) \/
  ((isa KAugAssign n \/ isa KAnnAssign n \/ isa KFor n \/ isa KAsyncFor n) /\ is_name a (attr "target" n)).

(** The names a target binds: stored names, not in an attribute or a subscript. *)
Definition stored (x : string) (v : pyval) : Prop := is_name x v /\ isa KStore (attr "ctx" v).
Inductive bound (x : string) : pyval -> Prop :=
| bound_here v : stored x v -> bound x v
| bound_field k u p fs f y : k <> KSubscript -> k <> KAttribute -> In (f, y) fs -> bound x y -> bound x (VNode k u p fs)
| bound_item l y : In y l -> bound x y -> bound x (VList l).
Definition gives (v : pyval) (x : string) : Prop := v = VStr x \/ stored x v.

(** The node gives the name [x] a meaning. *)
Definition defines (n : pyval) (x : string) : Prop :=
  ((isa KFunctionDef n \/ isa KAsyncFunctionDef n \/ isa KClassDef n) /\ as_str (attr "name" n) = x) \/
  ((isa KImport n \/ isa KImportFrom n) /\ exists a, In a (items "names" n) /\ attr "asname" a = VStr x) \/
  (isa KAssign n /\ exists t, In t (items "targets" n) /\ bound x t) \/
  ((isa KAugAssign n \/ isa KAnnAssign n \/ isa KNamedExpr n) /\ gives (attr "target" n) x) \/
  ((isa KFor n \/ isa KAsyncFor n) /\ bound x (attr "target" n)) \/
  ((isa KWith n \/ isa KAsyncWith n) /\ exists i, In i (items "items" n) /\ bound x (attr "optional_vars" i)) \/
  (isa KExceptHandler n /\ gives (attr "name" n) x) \/
  ((isa KListComp n \/ isa KGeneratorExp n \/ isa KSetComp n \/ isa KDictComp n) /\
     exists c, In c (items "generators" n) /\ bound x (attr "target" c)) \/
  (isa Karguments n /\ exists a, gives (attr "arg" a) x /\
     (In a (items "args" n) \/ In a (items "posonlyargs" n) \/ In a (items "kwonlyargs" n) \/
      a = attr "vararg" n \/ a = attr "kwarg" n)).

(** [import m as a], [from p import x as a]. *)
Definition aliases (n : pyval) (a m : string) : Prop :=
  exists i, In i (items "names" n) /\ attr "asname" i = VStr a /\
  (isa KImport n /\ m = as_str (attr "name" i) \/
   isa KImportFrom n /\ exists p, attr "module" n = VStr p /\ m = p +++ "." +++ as_str (attr "name" i)).

(** The call is one of the function [f]: by a name imported for it, or by an attribute that ends its
    name. [imp x p]: [x] is imported from [p]; [ali a m]: [a] stands for [m]. *)
Definition calls_function (imp ali : string -> string -> Prop) (n : pyval) (f : string) : Prop :=
  isa KCall n /\
  ((exists id, is_name id (attr "func" n) /\ ((exists p, imp id p /\ f = p +++ "." +++ id) \/ ali id f)) \/
   isa KAttribute (attr "func" n) /\ ends f (as_str (attr "attr" (attr "func" n)))).

(** A literal given to a call: in the place, or by one of the keywords. *)
Definition literal_at (places : list nat) (names : list string) (n c : pyval) : Prop :=
  (exists i a, In i places /\ nth_error (items "args" n) i = Some a /\ constant c a) \/
  (exists w k, In w (items "keywords" n) /\ attr "arg" w = VStr k /\ In k names /\ constant c (attr "value" w)).
Definition encoding_use imp ali (n c : pyval) : Prop :=
  exists f places, calls_function imp ali n f /\ In (f, places) codecs_encodings_indices /\
  literal_at places ["encoding"; "data_encoding"; "file_encoding"] n c.
Definition handler_use imp ali (n c : pyval) : Prop :=
  exists f place, calls_function imp ali n f /\ In (f, place) codecs_errors_indices /\ literal_at [place] ["errors"] n c.

(** A literal text given to [array] or [array.array]. *)
Definition typecode_use (ali : string -> string -> Prop) (n : pyval) (d : string) : Prop :=
  isa KCall n /\
  (is_name "array" (attr "func" n) \/ (exists id, is_name id (attr "func" n) /\ ali id "array.array") \/
   isa KAttribute (attr "func" n) /\ ends "array.array" (as_str (attr "attr" (attr "func" n)))) /\
  exists a, In a (items "args" n) /\ constant (VStr d) a.

(** What a state knows of imports. *)
Definition imp_st (s : st) (x p : string) : Prop := assoc x (s_import_mem_mod s) = Some p.
Definition ali_st (s : st) (a m : string) : Prop := assoc a (s_module_as_name s) = Some m.

(** A date format directive in a text: percent sign, flags and width, letter. *)
Definition directive_in (t d : string) : Prop :=
  exists a m c b, t = a +++ "%" +++ m +++ d +++ b /\ d = chr c /\ is_word c = true /\
  forall p x q, m = p +++ String x q -> is_digit x = true \/ is_space x = true \/ In x ["-"; "."; "#"; "+"]%char.
Definition strftime_use (n : pyval) (d : string) : Prop :=
  isa KCall n /\ isa KAttribute (attr "func" n) /\
  In (as_str (attr "attr" (attr "func" n))) ["strftime"; "strptime"] /\
  exists a t, In a (items "args" n) /\ constant (VStr t) a /\ directive_in t d.
Definition decorated (n : pyval) : Prop :=
  function_def n /\ exists d, In d (items "decorator_list" n) /\ (isa KName d \/ isa KAttribute d).

(** The uses of a module and of a member: imports, called names, names raised or caught, attributes. *)
Definition module_use (n : pyval) (m : string) : Prop :=
  imports n m \/
  (isa KImportFrom n /\ attr "module" n = VStr m) \/
  (exists p x, imports_from n p x /\ m = p +++ "." +++ x) \/
  (isa KAttribute n /\ ends m (as_str (attr "attr" n))).
Definition member_use (n : pyval) (m : string) : Prop :=
  imports n m \/
  (exists p x, imports_from n p x /\ (m = p +++ "." +++ x \/ m = x)) \/
  (isa KCall n /\ is_name m (attr "func" n)) \/
  ((isa KRaise n \/ isa KExceptHandler n) /\ exists x, below x n /\ is_name m x) \/
  (isa KAttribute n /\ ends m (as_str (attr "attr" n))).

(** A call by the dotted name [g]; a keyword argument [k], None being [**]. *)
Definition called (c : pyval) (g : string) : Prop :=
  isa KCall c /\
  (is_name g (attr "func" c) \/ (isa KAttribute (attr "func" c) /\ ends g (as_str (attr "attr" (attr "func" c))))).
Definition named_call (c : pyval) : Prop := isa KName (attr "func" c) \/ isa KAttribute (attr "func" c).
Definition keyword_arg (n : pyval) (k : option string) : Prop := isa Kkeyword n /\ as_ostr (attr "arg" n) = k.

(** The functions [f] a name [g] can stand for, when [imp x m] is [from m import x] and [asg x] an
    assignment to [x]. *)
Inductive resolves (imp : string -> string -> Prop) (asg : string -> Prop) (g : string) : string -> Prop :=
| rs_plain : resolves imp asg g g
| rs_imported m : imp g m -> resolves imp asg g (m +++ "." +++ g)
| rs_base p r m : g = p +++ "." +++ r -> imp p m -> resolves imp asg g (m +++ "." +++ g)
| rs_assigned p tl r : g = p +++ tl -> (tl = "" \/ exists q, tl = "." +++ q) -> asg p -> resolves imp asg g (r +++ tl)
| rs_assigned_from p tl r m : g = p +++ tl -> (tl = "" \/ exists q, tl = "." +++ q) -> asg p -> imp r m ->
    resolves imp asg g (m +++ "." +++ r +++ tl).

(** A replacement field without a number: braces not doubled. *)
Definition auto_field (t : string) : Prop :=
  exists a b, t = a +++ "{}" +++ b /\ (forall c, a <> c +++ "{") /\ (forall c, b <> "}" +++ c).

(** The callee of a decorator, or the decorator. *)
Definition decorator_of (d : pyval) : pyval := if is_kind KCall d then attr "func" d else d.
Definition plain (n : pyval) : Prop := isa KName n \/ isa KAttribute n \/ isa KLoad n.

(** What may evaluate to a dict: a display, a name, an attribute, a call, an element. *)
Definition maybe_dict (v : pyval) : Prop :=
  isa KDict v \/ isa KName v \/ isa KAttribute v \/ isa KCall v \/ isa KSubscript v.
(** What may name a type. *)
Definition maybe_type (v : pyval) : Prop := none_literal v \/ isa KName v \/ isa KAttribute v.

(** The text of a source from a line on. *)
Definition lines_from (src : string) (line : Z) : list string := skipn (Z.to_nat (line - 1)) (splitlines src).
Definition blank_or_backslash (w : string) : Prop :=
  forall a c b, w = a +++ String c b -> is_space c = true \/ c = bs.
Definition blank (w : string) : Prop := forall a c b, w = a +++ String c b -> is_space c = true.

(** ** Constructs of the language features *)

Section Shows.
  Variable e : env.

  (** The node's line carries no novermin comment. *)
  Definition counted (v : pyval) : Prop := ~ In (lineno v) (e_nolines e).

  (** [with] and [(] with nothing but blanks between, starting on the line. *)
  Definition with_paren (line : Z) : Prop :=
    exists src l ls a w b,
      e_source e = Some src /\ lines_from src line = l :: ls /\
      join nl (l :: ls) = a +++ "with" +++ w +++ "(" +++ b /\
      blank_or_backslash w /\ (String.length a < String.length l)%nat.

  (** The text at the position is [except] and [*]. *)
  Definition except_star (line col : Z) : Prop :=
    exists src l w b,
      e_source e = Some src /\ 0 < line /\ nth_error (splitlines src) (Z.to_nat (line - 1)) = Some l /\
      sdrop (Z.to_nat col) l = "except" +++ w +++ "*" +++ b /\ blank w.

  (** [shows f n]: the node [n] is a construct of the feature [f]. *)
  Inductive simple : flag -> pyval -> Prop :=
  | sh_print n : calls "print" n -> counted n -> simple FPrintV3 n
  | sh_format n t : isa KCall n -> counted n -> isa KAttribute (attr "func" n) ->
      attr "attr" (attr "func" n) = VStr "format" -> constant (VStr t) (attr "value" (attr "func" n)) ->
      auto_field t -> simple FFormat27 n
  | sh_long n : named "long" n -> is_excluded (e_cfg e) "long" = false -> simple FLongV2 n
  | sh_bytes n b : constant (VBytes b) n -> simple FBytesV3 n
  | sh_fstring n : isa KJoinedStr n -> simple FFstrings n
  | sh_self_doc n man : isa KJoinedStr n -> In "fstring-self-doc" (c_features (e_cfg e)) ->
      e_selfdoc e man n = Ok true -> simple FFstringsSelfDoc n
  | sh_bool n b : constant (VBool b) n -> simple FBoolConst n
  | sh_bool_name n : named "True" n \/ named "False" n -> simple FBoolConst n
  | sh_ann_var n : isa KAnnAssign n -> counted n -> simple FAnnotations n
  | sh_ann_ret n : function_def n -> counted n -> attr "returns" n <> VNone -> simple FAnnotations n
  | sh_ann_arg n a : function_def n -> counted n -> In a (items "args" (attr "args" n)) ->
      attr "annotation" a <> VNone -> simple FAnnotations n
  | sh_var_ann n : isa KAnnAssign n -> counted n -> simple FVarAnnotations n
  | sh_final n : isa KAnnAssign n -> counted n -> annotates "Final" (attr "annotation" n) ->
      simple FFinalAnnotations n
  | sh_literal n : isa KAnnAssign n -> counted n -> annotates "Literal" (attr "annotation" n) ->
      simple FLiteralAnnotations n
  | sh_literal_arg n a : function_def n -> counted n -> In a (items "args" (attr "args" n)) ->
      c_eval_annotations (e_cfg e) = true -> mentions_literal (attr "annotation" a) ->
      simple FLiteralAnnotations n
  | sh_async_def n : isa KAsyncFunctionDef n -> counted n -> simple FCoroutines n
  | sh_await n : isa KAwait n -> counted n -> simple FCoroutines n
  | sh_async_comp n : isa Kcomprehension n -> attr "is_async" n = VInt 1 -> simple FAsyncComprehension n
  | sh_async_for n : isa KAsyncFor n -> counted n -> simple FAsyncFor n
  | sh_walrus n : isa KNamedExpr n -> counted n -> simple FNamedExprs n
  | sh_kwonly n : isa Karguments n -> items "kwonlyargs" n <> [] -> simple FKwOnlyArgs n
  | sh_posonly n : isa Karguments n -> items "posonlyargs" n <> [] -> simple FPosOnlyArgs n
  | sh_nonlocal n : isa KNonlocal n -> counted n -> simple FNonlocal n
  | sh_yield_from n : isa KYieldFrom n -> counted n -> simple FYieldFrom n
  | sh_cause n : isa KRaise n -> counted n -> attr "cause" n <> VNone -> simple FRaiseCause n
  | sh_from_none n : isa KRaise n -> counted n -> none_literal (attr "cause" n) -> simple FRaiseFromNone n
  | sh_set n : isa KSet n -> simple FSetLiterals n
  | sh_set_comp n : isa KSetComp n -> simple FSetComp n
  | sh_dict_comp n : isa KDictComp n -> simple FDictComp n
  | sh_matmult n : isa KMatMult n -> simple FMatMult n
  | sh_pow n a b c : calls "pow" n -> counted n -> items "args" n = [a; b; c] ->
      int_literal a -> negative_literal b -> int_literal c -> simple FModInversePow n
  | sh_with n : isa KWith n -> counted n -> simple FWith n
  | sh_async_with n : isa KAsyncWith n -> counted n -> simple FAsyncWith n
  | sh_multi_with n a b l : with_stmt n -> counted n -> items "items" n = a :: b :: l -> simple FMultiWithitem n
  | sh_with_parens n a b l : with_stmt n -> counted n -> items "items" n = a :: b :: l ->
      with_paren (lineno n) -> simple FWithParens n
  | sh_unpack_args n : isa KCall n -> counted n -> not_last star_load (items "args" n) -> simple FGenUnpacking n
  | sh_unpack_kwargs n : isa KCall n -> counted n -> not_last double_star (items "keywords" n) ->
      simple FGenUnpacking n
  | sh_unpack_seq n x : isa KTuple n \/ isa KList n \/ isa KSet n -> In x (items "elts" n) -> star_load x ->
      simple FGenUnpacking n
  | sh_unpack_dict n x : isa KDict n -> In (VNone, x) (combine (items "keys" n) (items "values" n)) ->
      x <> VNone -> simple FGenUnpacking n
  | sh_unpack_assign n : isa KStarred n -> isa KStore (attr "ctx" n) -> simple FUnpackingAssign n
  | sh_type_alias n : isa KTypeAlias n -> counted n -> simple FTypeAlias n
  | sh_bytes_format n b : isa KBinOp n -> isa KMod (attr "op" n) -> constant (VBytes b) (attr "left" n) ->
      simple FBytesFormat n
  | sh_bytearray_format n : isa KBinOp n -> isa KMod (attr "op" n) -> calls "bytearray" (attr "left" n) ->
      simple FBytearrayFormat n
  | sh_dict_union n : isa KBinOp n -> isa KBitOr (attr "op" n) -> maybe_dict (attr "left" n) ->
      maybe_dict (attr "right" n) -> simple FDictUnion n
  | sh_dict_merge n : isa KAugAssign n -> counted n -> isa KBitOr (attr "op" n) ->
      maybe_dict (attr "target" n) -> maybe_dict (attr "value" n) -> simple FDictUnionMerge n
  | sh_generic n : isa KSubscript n -> counted n -> c_eval_annotations (e_cfg e) = true ->
      isa KName (attr "value" n) \/ isa KAttribute (attr "value" n) -> simple FBuiltinGeneric n
  | sh_func_deco n d : function_def n -> counted n -> In d (items "decorator_list" n) -> counted d ->
      simple FFuncDecorators n
  | sh_class_deco n d : isa KClassDef n -> counted n -> In d (items "decorator_list" n) -> counted d ->
      simple FClassDecorators n
  | sh_relaxed n d m : function_def n \/ isa KClassDef n -> counted n ->
      In d (items "decorator_list" n) -> counted d -> below m (decorator_of d) -> ~ plain m ->
      simple FRelaxedDecorators n
  | sh_match n : isa KMatch n -> counted n -> simple FPatternMatching n
  | sh_union n : isa KBinOp n -> isa KBitOr (attr "op" n) -> In "union-types" (c_features (e_cfg e)) ->
      maybe_type (attr "left" n) -> maybe_type (attr "right" n) -> simple FUnionTypes n
  | sh_union_assign n : isa KAugAssign n -> counted n -> isa KBitOr (attr "op" n) ->
      In "union-types" (c_features (e_cfg e)) -> maybe_type (attr "target" n) -> maybe_type (attr "value" n) ->
      simple FUnionTypes n
  | sh_super n : calls "super" n -> counted n -> items "args" n = [] -> simple FSuperNoArgs n
  | sh_except_star n : isa KExceptHandler n -> counted n -> except_star (lineno n) (col_offset n) ->
      simple FExceptStar n
  | sh_metaclass n k : isa KClassDef n -> counted n -> In k (items "keywords" n) ->
      attr "arg" k = VStr "metaclass" -> simple FMetaclass n
  | sh_module_dir n : function_def n -> counted n -> is_init_file e = true -> attr "name" n = VStr "__dir__" ->
      simple FModuleDir n
  | sh_module_getattr n : function_def n -> counted n -> is_init_file e = true ->
      attr "name" n = VStr "__getattr__" -> simple FModuleGetattr n
  | sh_maybe_var n : isa KAnnAssign n -> counted n -> c_eval_annotations (e_cfg e) = false ->
      simple FMaybeAnnotations n
  | sh_maybe_arg n a : function_def n -> counted n -> c_eval_annotations (e_cfg e) = false ->
      In a (items "args" (attr "args" n)) -> mentions_literal (attr "annotation" a) -> simple FMaybeAnnotations n
  | sh_maybe_generic n : isa KSubscript n -> counted n -> c_eval_annotations (e_cfg e) = false ->
      isa KName (attr "value" n) \/ isa KAttribute (attr "value" n) -> simple FMaybeAnnotations n.

  (** The classes that end the reach of a yield, an await, and a continue. *)
  Definition yield_stops := [KFunctionDef; KAsyncFunctionDef].
  Definition await_stops := [KAsyncFunctionDef; Kcomprehension].
  Definition loops := [KFor; KAsyncFor; KWhile].

  Inductive shows : flag -> pyval -> Prop :=
  | sh_simple f n : simple f n -> shows f n
  | sh_async_generator n y w : isa KAsyncFunctionDef n -> counted n ->
      held yield_stops y n -> isa KYield y -> held await_stops w n -> isa KAwait w -> shows FAsyncGenerator n
  | sh_await_in_comp n w : isa Kcomprehension n -> held await_stops w n -> isa KAwait w ->
      shows FAwaitInComprehension n
  | sh_continue n x c : isa KTry n -> counted n -> In x (items "finalbody" n) -> scope loops c x ->
      isa KContinue c -> shows FContinueInFinally n.

  (** The feature occurs in the tree. *)
  Inductive present (v : pyval) : flag -> Prop :=
  | pr_node f n : below n v -> shows f n -> present v f
  | pr_ellipsis n : loose n v -> constant VEllipsis n -> present v FEllipsis.
End Shows.
