(** Model of /repo/vermin/source_visitor.py:302-565: from the state after a tour to minimum versions
    and output text. *)
From Verif Require Import PyBase Utility RulesData Rules Config Formats Paths AstKinds Ast State Visitor.

(** source_visitor.py:333-493: the language features in the order they are combined, with their
    versions and the text under which they appear in incompatibility messages ([None]: no text). *)
Definition flag_table : list (flag * mins * option string) :=
  [ (FPrintV3, (Some (2, 0), Some (3, 0)), None);
    (FFormat27, (Some (2, 7), Some (3, 0)), Some "`""..{}.."".format(..)`");
    (FLongV2, (Some (2, 0), None), None);
    (FBytesV3, (Some (2, 6), Some (3, 0)), Some "'bytes' type");
    (FFstrings, (None, Some (3, 6)), Some "fstrings");
    (FFstringsSelfDoc, (None, Some (3, 8)), Some "self-documenting fstrings");
    (FBoolConst, (Some (2, 3), Some (3, 0)), Some "'bool' constant");
    (FAnnotations, (None, Some (3, 0)), Some "annotations");
    (FVarAnnotations, (None, Some (3, 6)), Some "variable annotations");
    (FFinalAnnotations, (None, Some (3, 8)), Some "Final annotations");
    (FLiteralAnnotations, (None, Some (3, 8)), Some "Literal annotations");
    (FCoroutines, (None, Some (3, 5)), Some "coroutines");
    (FAsyncGenerator, (None, Some (3, 6)), Some "async generators");
    (FAsyncComprehension, (None, Some (3, 7)), Some "async comprehensions");
    (FAwaitInComprehension, (None, Some (3, 7)), Some "await in comprehension");
    (FAsyncFor, (None, Some (3, 5)), Some "async for-loop");
    (FNamedExprs, (None, Some (3, 8)), Some "named expressions");
    (FKwOnlyArgs, (None, Some (3, 0)), Some "keyword-only arguments");
    (FPosOnlyArgs, (None, Some (3, 8)), Some "position only arguments");
    (FNonlocal, (None, Some (3, 0)), Some "'nonlocal' statement");
    (FYieldFrom, (None, Some (3, 3)), Some "yield from");
    (FRaiseCause, (None, Some (3, 0)), Some "exception cause");
    (FRaiseFromNone, (None, Some (3, 3)), Some "raise ... from None");
    (FSetLiterals, (Some (2, 7), Some (3, 0)), Some "set literals");
    (FSetComp, (Some (2, 7), Some (3, 0)), Some "set comprehension");
    (FDictComp, (Some (2, 7), Some (3, 0)), Some "dict comprehension");
    (FMatMult, (None, Some (3, 5)), Some "infix matrix multiplication");
    (FContinueInFinally, (None, Some (3, 8)), Some "'continue' in 'finally'");
    (FModInversePow, (None, Some (3, 8)), Some "modular inverse 'pow()'");
    (FWith, (Some (2, 5), Some (3, 0)), Some "'with' statement");
    (FAsyncWith, (None, Some (3, 5)), Some "'async with' statement");
    (FMultiWithitem, (Some (2, 7), Some (3, 1)), Some "multiple context expressions in a 'with' statement");
    (FWithParens, (None, Some (3, 9)),
     Some "multiple context expressions in a `with` statement with parentheses");
    (FGenUnpacking, (None, Some (3, 5)), Some "generalized unpacking");
    (FUnpackingAssign, (None, Some (3, 0)), Some "unpacking assignment");
    (FEllipsis, (None, Some (3, 0)), Some "ellipsis literal (`...`) out of slices");
    (FTypeAlias, (None, Some (3, 12)), Some "type alias statement (`type X = SomeType`)");
    (FBytesFormat, (Some (2, 6), Some (3, 5)), Some "bytes format");
    (FBytearrayFormat, (None, Some (3, 5)), Some "bytearray format");
    (FDictUnion, (None, Some (3, 9)), Some "dict union");
    (FDictUnionMerge, (None, Some (3, 9)), Some "dict union merge");
    (FBuiltinGeneric, (None, Some (3, 9)), Some "builtin generic type annotations");
    (FFuncDecorators, (Some (2, 4), Some (3, 0)), Some "function decorators");
    (FClassDecorators, (Some (2, 6), Some (3, 0)), Some "class decorators");
    (FRelaxedDecorators, (None, Some (3, 9)), Some "relaxed decorators");
    (FPatternMatching, (None, Some (3, 10)), Some "pattern matching");
    (FUnionTypes, (None, Some (3, 10)), Some "union types as `X | Y`");
    (FSuperNoArgs, (None, Some (3, 0)), Some "super() without arguments");
    (FExceptStar, (None, Some (3, 11)), Some "`except*`");
    (FMetaclass, (None, Some (3, 0)), Some "'metaclass' class keyword") ].

(** One thing [minimum_versions] does: combine the versions of a rule (with the text and entity it
    records and prints), or raise. *)
Inductive step : Type :=
| SRule (versions : mins) (info : option string) (print_entity : option entity)
| SRaise (x : exn).

Definition has_flag (s : st) (f : flag) : bool := existsb (flag_eqb f) (s_flags s).

(** Steps for the entries of a list that have a rule. *)
Definition rule_steps {A} (lookup : A -> option mins) (text : A -> string) (ent : A -> entity) (l : list A)
  : list step :=
  flat_map (fun a => match lookup a with
                     | Some v => [SRule v (Some (text a)) (Some (ent a))]
                     | None => []
                     end) l.

Definition quoted (pre x post : string) : string := pre +++ "'" +++ x +++ "'" +++ post.

(** source_visitor.py:519-523: one recorded encoding against the table, in table order. [.lower()]
    raises AttributeError on what is neither str nor bytes; bytes are in no tuple of names, and
    raise TypeError against a key that is a str. *)
Definition encoding_steps (name : pyval) : list step :=
  flat_map (fun kv =>
    match name with
    | VStr s =>
        if enc_matches (fst kv) (lower s)
        then [SRule (snd kv) (Some (quoted "codecs encoding " s "")) (Some (EStr s))] else []
    | VBytes _ => match fst kv with EncNames _ => [] | EncSubstr _ => [SRaise TypeError] end
    | _ => [SRaise AttributeError]
    end) codecs_encodings_reqs.

Section MinVersions.
  Variable e : env.
  Notation cfg := (e_cfg e).

  (** source_visitor.py:333-551: everything combined, in order. *)
  Definition steps (s : st) : list step :=
    flat_map (fun fvi => let '(f, v, i) := fvi in if has_flag s f then [SRule v i None] else []) flag_table ++
    rule_steps (fun d => assoc d strftime_reqs) (fun d => quoted "strftime directive " d "") EStr (s_strftimes s) ++
    rule_steps (fun d => assoc d bytes_reqs) (fun d => quoted "bytes directive " d "") EStr (s_bytesdirs s) ++
    rule_steps (fun d => assoc d array_typecode_reqs) (fun d => quoted "array typecode " d "") EStr (s_typecodes s) ++
    rule_steps (fun n => match n with VStr h => assoc h codecs_error_handlers_reqs | _ => None end)
               (fun n => quoted "codecs error handler name " (as_str n) "") (fun n => EStr (as_str n)) (s_cehs s) ++
    flat_map encoding_steps (s_cencs s) ++
    rule_steps (mod_req (bps_of e)) (fun m => quoted "" m " module") EStr (s_modules s) ++
    rule_steps (mem_req (bps_of e)) (fun m => quoted "" m " member") EStr (s_members s) ++
    rule_steps (fun fk => match snd fk with Some k => kwarg_req (bps_of e) (fst fk, k) | None => None end)
               (fun fk => quoted "" (fst fk +++ "(" +++ kw_text (snd fk) +++ ")") "")
               (fun fk => EKw (fst fk) (snd fk)) (s_kwargs s) ++
    rule_steps (fun d => assoc d decorator_user_functions) (fun d => quoted "" d " user function decorator")
               EStr (s_ufds s).

  (** source_visitor.py:309-312 *)
  Fixpoint add_info (v : mins) (i : string) (l : refs_t) : refs_t :=
    match l with
    | [] => [(v, [i])]
    | (k, x) :: r => if mins_eqb v k then (k, x ++ [i]) :: r else (k, x) :: add_info v i r
    end.

  (** source_visitor.py:302-315 [__add_versions_entity]; flags have no entity and are not printed. *)
  Definition add_versions (v : mins) (info : option string) (ent : option entity) (m : mins) (s : st)
    : res (mins * st) :=
    letr show := violates e (Some v) in
    letr s' :=
      (match info with
       | Some i =>
           when show
             (upd (fun s => u_info (add_info v i (s_info s)) s) >>
              match ent with
              | Some _ => verbose_print_v e 2 i ent None (Some v) None
              | None => nop
              end)
       | None => nop
       end) s in
    letr m' := combine2 (c_ignore_incomp cfg) (Some (s_info s')) m v in
    Ok (m', s').

  Fixpoint run_steps (l : list step) (m : mins) (s : st) : res (mins * st) :=
    match l with
    | [] => Ok (m, s)
    | SRule v i ent :: r =>
        letr ms := add_versions v i ent m s in run_steps r (fst ms) (snd ms)
    | SRaise x :: _ => Err x
    end.

  (** source_visitor.py:317-552 [minimum_versions]. *)
  Definition minimum_versions (s : st) : res (mins * st) :=
    let m := if has_flag s FPrintV2 then (Some (2, 0), Some (0, 0)) else zero_mins in
    letr s' :=
      when (has_flag s FPrintV3)
        (verbose_print_v e 2 "print(expr)" None (Some (-1)) (Some (Some (2, 0), Some (3, 0))) None) s in
    run_steps (steps s) m s'.

  (** source_visitor.py:554-565 [output_text]. Simplification: [list(set(text))] has no fixed order;
      the model keeps first occurrences in order. *)
  Definition output_lines (s : st) : list string :=
    sort_output_lines cfg (if c_print_visits cfg then s_out s else dedup (s_out s)).
  Definition output_text (s : st) : string :=
    let t := join nl (output_lines s) in
    if String.eqb t "" then t else t +++ nl.
End MinVersions.
