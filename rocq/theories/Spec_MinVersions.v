(** Specifications for the verdict on one visited source (C35, C36, C45, C46). *)
From Verif Require Import PyBase Utility RulesData Rules Config AstKinds Ast State Spec_Base Spec_Rules.

(** The documented minimum of each language feature: the versions of Python 2 and 3 in which it
    appeared, [no2] when Python 2 never had it. *)
Definition no2 (minor : Z) : mins := (None, Some (3, minor)).
Definition both (minor2 minor3 : Z) : mins := (Some (2, minor2), Some (3, minor3)).
Inductive documented : flag -> mins -> Prop :=
| doc_print_statement : documented FPrintV2 (Some (2, 0), Some (0, 0))
| doc_print_function : documented FPrintV3 (both 0 0)
| doc_format : documented FFormat27 (both 7 0)
| doc_long : documented FLongV2 (Some (2, 0), None)
| doc_bytes : documented FBytesV3 (both 6 0)
| doc_fstrings : documented FFstrings (no2 6)
| doc_self_doc : documented FFstringsSelfDoc (no2 8)
| doc_bool : documented FBoolConst (both 3 0)
| doc_annotations : documented FAnnotations (no2 0)
| doc_var_annotations : documented FVarAnnotations (no2 6)
| doc_final : documented FFinalAnnotations (no2 8)
| doc_literal : documented FLiteralAnnotations (no2 8)
| doc_coroutines : documented FCoroutines (no2 5)
| doc_async_generator : documented FAsyncGenerator (no2 6)
| doc_async_comp : documented FAsyncComprehension (no2 7)
| doc_await_comp : documented FAwaitInComprehension (no2 7)
| doc_async_for : documented FAsyncFor (no2 5)
| doc_named_expr : documented FNamedExprs (no2 8)
| doc_kwonly : documented FKwOnlyArgs (no2 0)
| doc_posonly : documented FPosOnlyArgs (no2 8)
| doc_nonlocal : documented FNonlocal (no2 0)
| doc_yield_from : documented FYieldFrom (no2 3)
| doc_cause : documented FRaiseCause (no2 0)
| doc_from_none : documented FRaiseFromNone (no2 3)
| doc_set_literal : documented FSetLiterals (both 7 0)
| doc_set_comp : documented FSetComp (both 7 0)
| doc_dict_comp : documented FDictComp (both 7 0)
| doc_matmult : documented FMatMult (no2 5)
| doc_continue : documented FContinueInFinally (no2 8)
| doc_pow : documented FModInversePow (no2 8)
| doc_with : documented FWith (both 5 0)
| doc_async_with : documented FAsyncWith (no2 5)
| doc_multi_with : documented FMultiWithitem (both 7 1)
| doc_with_parens : documented FWithParens (no2 9)
| doc_unpacking : documented FGenUnpacking (no2 5)
| doc_unpack_assign : documented FUnpackingAssign (no2 0)
| doc_ellipsis : documented FEllipsis (no2 0)
| doc_type_alias : documented FTypeAlias (no2 12)
| doc_bytes_format : documented FBytesFormat (both 6 5)
| doc_bytearray_format : documented FBytearrayFormat (no2 5)
| doc_dict_union : documented FDictUnion (no2 9)
| doc_dict_union_merge : documented FDictUnionMerge (no2 9)
| doc_generic : documented FBuiltinGeneric (no2 9)
| doc_func_deco : documented FFuncDecorators (both 4 0)
| doc_class_deco : documented FClassDecorators (both 6 0)
| doc_relaxed_deco : documented FRelaxedDecorators (no2 9)
| doc_match : documented FPatternMatching (no2 10)
| doc_union : documented FUnionTypes (no2 10)
| doc_super : documented FSuperNoArgs (no2 0)
| doc_except_star : documented FExceptStar (no2 11)
| doc_metaclass : documented FMetaclass (no2 0).

(** What the code takes as "the rule [k] covers the encoding [n]": one of several names, or any part
    of the only one. [by_name]: what C46 asks for. *)
Definition covers (k : enckey) (n : string) : Prop :=
  match k with EncNames l => In n l | EncSubstr s => exists a b, s = a +++ n +++ b end.
Definition by_name (k : enckey) (n : string) : Prop :=
  match k with EncNames l => In n l | EncSubstr s => n = s end.

(** The rules triggered by what a visit recorded. *)
Inductive triggered (bps : list string) (s : st) : mins -> Prop :=
| trig_feature f m : In f (s_flags s) -> documented f m -> triggered bps s m
| trig_strftime d m : In d (s_strftimes s) -> In (d, m) strftime_reqs -> triggered bps s m
| trig_bytes d m : In d (s_bytesdirs s) -> In (d, m) bytes_reqs -> triggered bps s m
| trig_typecode d m : In d (s_typecodes s) -> In (d, m) array_typecode_reqs -> triggered bps s m
| trig_handler n m : In (VStr n) (s_cehs s) -> In (n, m) codecs_error_handlers_reqs -> triggered bps s m
| trig_encoding n k m : In (VStr n) (s_cencs s) -> In (k, m) codecs_encodings_reqs -> covers k (lower n) ->
    triggered bps s m
| trig_module n m : In n (s_modules s) -> mod_req bps n = Some m -> triggered bps s m
| trig_member n m : In n (s_members s) -> mem_req bps n = Some m -> triggered bps s m
| trig_kwarg f k m : In (f, Some k) (s_kwargs s) -> kwarg_req bps (f, k) = Some m -> triggered bps s m
| trig_deco n m : In n (s_ufds s) -> In (n, m) decorator_user_functions -> triggered bps s m.

(** The least requirement at least as strict as everything in [P], starting from "unknown". *)
Definition is_join_of (P : mins -> Prop) (r : mins) : Prop :=
  mins_le zero_mins r /\ (forall m, P m -> mins_le m r) /\
  forall u, mins_le zero_mins u -> (forall m, P m -> mins_le m u) -> mins_le r u.

(** Recorded encodings that are strings; on others the rule table cannot be asked (C44). *)
Definition str_encodings (s : st) : Prop := forall v, In v (s_cencs s) -> exists n, v = VStr n.

(** Violations mode has a target to compare with. *)
Definition targets_given (c : config) : Prop := c_only_show_violations c = true -> c_targets c <> [].

(** A visit that recorded the encoding [n] and nothing else. *)
Definition only_encoding (s : st) (n : string) : Prop :=
  s_flags s = [] /\ s_strftimes s = [] /\ s_bytesdirs s = [] /\ s_typecodes s = [] /\ s_cehs s = [] /\
  s_modules s = [] /\ s_members s = [] /\ s_kwargs s = [] /\ s_ufds s = [] /\ s_cencs s = [VStr n].

(** A proper part of a name that stands alone in its rule. *)
Definition proper_part (n : string) : Prop :=
  exists k a b m, In (EncSubstr k, m) codecs_encodings_reqs /\ k = a +++ n +++ b /\ k <> n.

(** What a verdict looks like: versions of their own major or unknown; a major is only ruled out when
    the other one has a version, or is ruled out too. *)
Definition verdict_ok (m : mins) : Prop :=
  wf_part 2 (fst m) /\ wf_part 3 (snd m) /\
  (fst m = None -> snd m = None \/ names_version (snd m)) /\
  (snd m = None -> fst m = None \/ names_version (fst m)).
