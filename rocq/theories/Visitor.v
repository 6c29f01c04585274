(** Model of /repo/vermin/source_visitor.py: SourceVisitor's traversal. A visit is a function from
    state to state or exception; each method is one definition over a node's fields and the
    (already given) visits of its children, so the whole traversal is one structural recursion
    [sem] over the tree. *)
From Verif Require Import PyBase Utility RulesData Rules Config Formats Paths AstKinds Ast State.

(** ** Actions *)

Definition act : Type := st -> res st.
Definition nop : act := fun s => Ok s.
Definition seq (a b : act) : act := fun s => match a s with Ok s' => b s' | Err x => Err x end.
Infix ">>" := seq (at level 58, right associativity).
Definition upd (f : st -> st) : act := fun s => Ok (f s).
Definition rd (f : st -> act) : act := fun s => f s s.
Definition fail (x : exn) : act := fun _ => Err x.
Definition when (b : bool) (a : act) : act := if b then a else nop.
Fixpoint each {A} (f : A -> act) (l : list A) : act :=
  match l with [] => nop | x :: r => f x >> each f r end.
(** Use of a value whose computation may raise. *)
Definition with_res {A} (m : res A) (f : A -> act) : act :=
  match m with Ok a => f a | Err x => fail x end.

(** ** Regular expressions (source_visitor.py:12-15) *)

(** The class [-\.\d#\s\+] *)
Definition is_dir_class (c : ascii) : bool :=
  is_digit c || is_space c || existsb (Ascii.eqb c) ["-"; "."; "#"; "+"]%char.

(** The last digit of a string and what follows it. *)
Fixpoint last_digit (s : string) : option (ascii * string) :=
  match s with
  | EmptyString => None
  | String c r =>
      match last_digit r with
      | Some x => Some x
      | None => if is_digit c then Some (c, r) else None
      end
  end.

(** A match of STRFTIME_DIRECTIVE_REGEX after the percent sign: its group and the rest; the greedy
    class gives back characters until a word character follows. *)
Definition directive_at (s : string) : option (string * string) :=
  let (m, rest) := span is_dir_class s in
  let back := match last_digit m with
              | Some (d, r) => Some (chr d, r +++ rest)
              | None => None
              end in
  match rest with
  | String c rest' => if is_word c then Some (chr c, rest') else back
  | EmptyString => back
  end.

Fixpoint find_directives_n (n : nat) (s : string) : list string :=
  match n, s with
  | S k, String c r =>
      if Ascii.eqb c "%" then
        match directive_at r with
        | Some (g, rest) => g :: find_directives_n k rest
        | None => find_directives_n k r
        end
      else find_directives_n k r
  | _, _ => []
  end.

(** source_visitor.py:12 STRFTIME_DIRECTIVE_REGEX.findall; every step consumes a character. *)
Definition find_directives (s : string) : list string := find_directives_n (String.length s) s.

(** source_visitor.py:14 STR_27_FORMAT_REGEX.search(s) is not None. *)
Fixpoint format27_search (prev_open : bool) (s : string) : bool :=
  match s with
  | EmptyString => false
  | String c r =>
      (Ascii.eqb c "{" && negb prev_open &&
       match r with
       | String d r2 =>
           Ascii.eqb d "}" && match r2 with String x _ => negb (Ascii.eqb x "}") | _ => true end
       | EmptyString => false
       end) || format27_search (Ascii.eqb c "{") r
  end.

(** source_visitor.py:15 WITH_PAREN_REGEX at a position, and the start of its first match. *)
Fixpoint skip_ws_bs (s : string) : string :=
  match s with
  | String c r => if is_space c || Ascii.eqb c bs then skip_ws_bs r else s
  | EmptyString => s
  end.
Definition with_paren_at (s : string) : bool :=
  startswith "with" s && startswith "(" (skip_ws_bs (sdrop 4 s)).
Fixpoint with_paren_search (i : nat) (s : string) : option nat :=
  if with_paren_at s then Some i
  else match s with EmptyString => None | String _ r => with_paren_search (S i) r end.

(** ** Node predicates *)

(** source_visitor.py:17-20 [is_int_node]. *)
Definition int_const (v : pyval) : option Z :=
  match const_val v with Some (VInt z) => Some z | _ => None end.
Definition is_int_node (v : pyval) : bool :=
  match int_const v with
  | Some _ => true
  | None => is_kind KUnaryOp v && match int_const (attr "operand" v) with Some _ => true | None => false end
  end.

(** source_visitor.py:22-25 [is_neg_int_node]. *)
Definition is_neg_int_node (v : pyval) : bool :=
  match int_const v with
  | Some z => z <? 0
  | None => is_kind KUnaryOp v && is_kind KUSub (attr "op" v) &&
            match int_const (attr "operand" v) with Some _ => true | None => false end
  end.

(** source_visitor.py:27-34 [is_none_node]. *)
Definition is_none_node (v : pyval) : bool :=
  match name_id v with
  | Some i => String.eqb i "None"
  | None => match const_val v with Some VNone => true | _ => false end
  end.

(** source_visitor.py:36-42 [is_ellipsis_node]. *)
Definition is_ellipsis_node (v : pyval) : bool :=
  match const_val v with Some VEllipsis => true | _ => false end.

(** source_visitor.py:47-49 [is_valid_star_unpack]. *)
Definition is_valid_star_unpack (v : pyval) : bool := is_kind KStarred v && is_kind KLoad (attr "ctx" v).

(** ** Names of attributes (source_visitor.py:752-805) *)

(** source_visitor.py:755-756 [__resolve_module_name]. *)
Definition resolve_module_name (man : list (string * string)) (n : string) : string :=
  match assoc n man with Some m => m | None => n end.

Definition hd_is (x : option string) (l : list (option string)) : bool :=
  match l with y :: _ => ostr_eqb x y | [] => false end.
Definition last_is (x : option string) (l : list (option string)) : bool := hd_is x (rev l).

(** source_visitor.py:778-786: a Dict, Set or List below a name. *)
Definition gan_coll (n : string) (fn : list (option string)) : list (option string) :=
  if (List.length fn =? 0)%nat || (negb (hd_is (Some n) fn) && negb (last_is (Some n) fn))
  then fn ++ [Some n] else fn.

(** source_visitor.py:787-790, 801-803: a str or bytes literal. *)
Definition gan_lit (n : string) (fn : list (option string)) : list (option string) :=
  if (List.length fn =? 0)%nat || (negb (hd_is (Some n) fn) && (List.length fn =? 1)%nat)
  then fn ++ [Some n] else fn.

(** source_visitor.py:791-800: a number; [n] is None for a complex one, and then full_name[0] of an
    empty list raises IndexError. *)
Definition gan_num (n : option string) (fn : list (option string)) : res (list (option string)) :=
  match fn with
  | [] => match n with Some _ => Ok [n] | None => Err IndexError end
  | _ => Ok (if negb (hd_is n fn) && (List.length fn =? 1)%nat then fn ++ [n] else fn)
  end.

(** One iteration of source_visitor.py:767-803. *)
Definition gan_step (man : list (string * string)) (acc : list (option string) * bool) (n : pyval)
  : res (list (option string) * bool) :=
  let fn := fst acc in
  let prim := snd acc || existsb (fun t => hd_is (Some t) fn) builtin_types in
  let ok fn := Ok (fn, prim) in
  match n with
  | VNode KAttribute _ _ fs =>
      let fn := fn ++ [Some (fstr "attr" fs)] in
      ok (match name_id (fld "value" fs) with
          | Some i => fn ++ [Some (resolve_module_name man i)]
          | None => fn
          end)
  | VNode KCall _ _ fs =>
      ok (match name_id (fld "func" fs) with Some i => fn ++ [Some i] | None => fn end)
  | VNode KDict _ _ _ => ok (if prim then fn else gan_coll "dict" fn)
  | VNode KSet _ _ _ => ok (if prim then fn else gan_coll "set" fn)
  | VNode KList _ _ _ => ok (if prim then fn else gan_coll "list" fn)
  | VNode KConstant _ _ fs =>
      if prim then ok fn
      else match fld "value" fs with
           | VStr _ => ok (gan_lit "str" fn)
           | VInt _ => mapr (fun fn => (fn, prim)) (gan_num (Some "int") fn)
           | VFloat _ => mapr (fun fn => (fn, prim)) (gan_num (Some "float") fn)
           | VComplex _ => mapr (fun fn => (fn, prim)) (gan_num None fn)
           | VBytes _ => ok (gan_lit "bytes" fn)
           | _ => ok fn
           end
  | _ => ok fn
  end.

Fixpoint gan_loop (man : list (string * string)) (l : list pyval) (acc : list (option string) * bool)
  : res (list (option string) * bool) :=
  match l with
  | [] => Ok acc
  | n :: r => letr acc' := gan_step man acc n in gan_loop man r acc'
  end.

(** source_visitor.py:758-805 [__get_attribute_name]. *)
Definition get_attribute_name (man : list (string * string)) (v : pyval) : res (list (option string)) :=
  mapr (fun acc => rev (fst acc)) (gan_loop man (walk v) ([], false)).

(** [dotted_name(self.__get_attribute_name(v))]. *)
Definition dotted_attr (man : list (string * string)) (v : pyval) : res string :=
  mapr dotted (get_attribute_name man v).

(** ** Dicts (source_visitor.py:1176-1200) *)

(** The verdict of [__is_dict] for a value and everything below it. *)
Inductive dtree : Type :=
| DNode (b : bool) (kids : list (string * dtree))
| DList (l : list dtree)
| DOther.
Definition d_is (d : dtree) : bool := match d with DNode b _ => b | _ => false end.
Definition d_kid (f : string) (d : dtree) : dtree :=
  match d with DNode _ ks => match assoc f ks with Some x => x | None => DOther end | _ => DOther end.
Definition d_list (d : dtree) : list dtree := match d with DList l => l | _ => [] end.

(** The int index of a constant slice; True and False are ints. *)
Definition slice_index (v : pyval) : option Z :=
  match const_val v with
  | Some (VInt z) => Some z
  | Some (VBool b) => Some (if b then 1 else 0)
  | _ => None
  end.

(** [n < len(l) and is_dict(l[n])]. Simplification: false for a negative n, which no literal has. *)
Definition d_index (n : Z) (l : list dtree) : bool :=
  if n <? 0 then false
  else match nth_error l (Z.to_nat n) with Some d => d_is d | None => false end.

Fixpoint is_dict_tree (nr : list (string * string)) (v : pyval) : dtree :=
  match v with
  | VNode k _ _ fs =>
      let ks := map (fun fx => (fst fx, is_dict_tree nr (snd fx))) fs in
      let sub f := match assoc f ks with Some d => d | None => DOther end in
      DNode
        (match k with
         | KDict => true
         | KName => match assoc (fstr "id" fs) nr with Some t => String.eqb t "dict" | None => false end
         | KCall =>
             match name_id (fld "func" fs) with
             | Some i => String.eqb i "dict"
             | None => is_kind KLambda (fld "func" fs) && d_is (d_kid "body" (sub "func"))
             end
         | KSubscript =>
             match slice_index (fld "slice" fs) with
             | Some n => d_index n (d_list (d_kid "elts" (sub "value")))
                         || d_index n (d_list (d_kid "values" (sub "value")))
             | None => false
             end
         | _ => false
         end) ks
  | VList l => DList (map (is_dict_tree nr) l)
  | _ => DOther
  end.

(** source_visitor.py:1176-1200 [__is_dict]. *)
Definition is_dict (nr : list (string * string)) (v : pyval) : bool := d_is (is_dict_tree nr v).

(** ** Children's visits *)

(** What visiting a field value does: nothing for atoms; [self.visit] and [self.generic_visit] of a
    node; a list of these. *)
Inductive ksem : Type :=
| KOther
| KNode (visit gvisit : act)
| KList_ (l : list ksem).

Definition k_visit (k : ksem) : act := match k with KNode v _ => v | _ => nop end.
Definition k_gvisit (k : ksem) : act := match k with KNode _ g => g | _ => nop end.
Definition k_list (k : ksem) : list ksem := match k with KList_ l => l | _ => [] end.
Definition kid (f : string) (ks : list (string * ksem)) : ksem :=
  match assoc f ks with Some k => k | None => KOther end.

(** ast.NodeVisitor.generic_visit (standard library): fields in order, nodes and lists of nodes. *)
Definition visit_field (k : ksem) : act :=
  match k with
  | KOther => nop
  | KNode v _ => v
  | KList_ l => each k_visit l
  end.
Definition visit_fields (ks : list (string * ksem)) : act := each (fun fk => visit_field (snd fk)) ks.

Section Visitor.
  Variable e : env.
  Notation cfg := (e_cfg e).

  (** ** Source lines *)

  (** source_visitor.py:261-271 [__get_source_line]. Columns are byte offsets, as the parser counts;
      the code indexes characters with them (the same on ASCII lines). *)
  Definition source_line (line col : Z) : option string :=
    match e_source e with
    | None => None
    | Some src =>
        if 0 <? line
        then option_map (sdrop (Z.to_nat col)) (nth_error (splitlines src) (Z.to_nat (line - 1)))
        else None
    end.

  (** source_visitor.py:273-279 [__get_source_lines]: lines begin .. begin + amount. *)
  Definition source_lines (begin amount : Z) : string :=
    join nl (somes (map (fun i => source_line (begin + Z.of_nat i) 0)
                        (List.seq 0 (Z.to_nat (amount + 1))))).

  (** ** Targets and printing *)

  (** source_visitor.py:290-295: the target of each position; an empty target list raises IndexError
      at line 298. *)
  Definition aligned_targets : res (option ver * option ver) :=
    match map snd (c_targets cfg) with
    | [] => Err IndexError
    | [t] => Ok (if fst t <? 3 then (Some t, None) else (None, Some t))
    | t0 :: t1 :: _ => Ok (Some t0, Some t1)
    end.
  Definition exceeds (t : option ver) (v : option ver) : bool :=
    match t, v with
    | None, _ => false
    | Some _, None => true
    | Some t, Some v => vltb t v
    end.

  (** source_visitor.py:284-300 [__violates_target_versions]. *)
  Definition violates (versions : option mins) : res bool :=
    match versions with
    | None => Ok true
    | Some m =>
        if negb (c_only_show_violations cfg) then Ok true
        else letr ts := aligned_targets in
             Ok (exceeds (fst ts) (fst m) || exceeds (snd ts) (snd m))
    end.

  Definition lookup_lc (x : entity) (s : st) : option (Z * option Z) :=
    option_map snd (find (fun kv => entity_eqb x (fst kv)) (s_lcs s)).

  (** source_visitor.py:578-602 [__verbose_print]. *)
  Definition verbose_print_v (level : Z) (msg : string) (ent : option entity) (line : option Z)
             (versions : option mins) (plural : option bool) : act :=
    fun s =>
      match violates versions with
      | Err x => Err x
      | Ok false => Ok s
      | Ok true =>
          if skip_output_line cfg || (c_verbose cfg <? level) then Ok s
          else
            let lc := match ent with
                      | Some x => if 2 <? c_verbose cfg then lookup_lc x s else None
                      | None => None
                      end in
            let '(line, col) := match lc with Some (l, c) => (Some l, c) | None => (line, None) end in
            let line := match line with
                        | Some l => if l =? -1 then None else Some l
                        | None => if 2 <? c_verbose cfg then Some (s_line s) else None
                        end in
            Ok (u_out (s_out s ++ [format_output_line cfg msg (e_path e) line col versions plural]) s)
      end.

  (** source_visitor.py:604-612 [__vvprint], [__vvvprint], [__vvvvprint] in the forms they are
      called: message only, with versions, with line and versions. *)
  Definition vv (msg : string) (v : mins) : act := verbose_print_v 2 msg None None (Some v) None.
  Definition vv_pl (msg : string) (v : mins) (pl : bool) : act :=
    verbose_print_v 2 msg None None (Some v) (Some pl).
  Definition vvl (msg : string) (line : Z) (v : mins) : act :=
    verbose_print_v 2 msg None (Some line) (Some v) None.
  Definition vvl_pl (msg : string) (line : Z) (v : mins) : act :=
    verbose_print_v 2 msg None (Some line) (Some v) (Some true).
  Definition vv_msg (msg : string) : act := verbose_print_v 2 msg None None None None.
  Definition vvl_msg (msg : string) (line : Z) : act := verbose_print_v 2 msg None (Some line) None None.
  Definition vvv (msg : string) (v : mins) : act := verbose_print_v 3 msg None None (Some v) None.
  Definition vvvv (msg : string) : act := verbose_print_v 4 msg None None None None.

  (** ** Recording *)

  Definition set_flag (f : flag) : act :=
    upd (fun s => if existsb (flag_eqb f) (s_flags s) then s else u_flags (f :: s_flags s) s).

  (** source_visitor.py:870-872 [__add_line_col]. *)
  Definition add_lc (x : entity) (line : Z) (col : option Z) : act :=
    upd (fun s => u_lcs ((x, (line, col)) :: s_lcs s) s).

  (** source_visitor.py:731-732 [__add_user_def]. *)
  Definition add_user_def (n : string) : act := upd (fun s => u_user_defs (set_add n (s_user_defs s)) s).

  (** source_visitor.py:734-738 [__add_user_def_node]. *)
  Definition add_user_def_node (v : pyval) : act :=
    match v with
    | VNode KName _ _ fs => when (is_kind KStore (fld "ctx" fs)) (add_user_def (fstr "id" fs))
    | VStr s => add_user_def s
    | _ => nop
    end.

  (** source_visitor.py:614-625 [__add_module]. *)
  Definition add_module (m : string) (line : Z) (col : option Z) : act :=
    rd (fun s =>
      if mem m (s_user_defs s) then vvvv ("Ignoring module '" +++ m +++ "' because it's user-defined!")
      else if is_excluded cfg m then vv_msg ("Excluding module: " +++ m)
      else if mem m (s_modules s) then nop
      else upd (fun s => u_modules (s_modules s ++ [m]) s) >> add_lc (EStr m) line col).

  (** source_visitor.py:627-639 [__add_member]. *)
  Definition add_member (m : string) (line : Z) (col : option Z) : act :=
    rd (fun s =>
      if mem m (s_user_defs s) then vvvv ("Ignoring member '" +++ m +++ "' because it's user-defined!")
      else if is_excluded cfg m then vv_msg ("Excluding member: " +++ m)
      else if has_key m mod_mem_reqs_x
           then upd (fun s => u_members (s_members s ++ [m]) s) >> add_lc (EStr m) line col
           else nop).

  Definition kw_text (k : option string) : string := match k with Some x => x | None => "None" end.
  Definition kw_eqb (a b : string * option string) : bool :=
    String.eqb (fst a) (fst b) && ostr_eqb (snd a) (snd b).

  (** source_visitor.py:641-654 [__add_kwargs]: the call's effect and its return value. *)
  Definition kw_accepted (s : st) (f : string) (k : option string) : bool :=
    negb (mem f (s_user_defs s)) && negb (is_excluded_kwarg cfg f (kw_text k)).
  Definition add_kwargs (f : string) (k : option string) (line : Z) : act :=
    rd (fun s =>
      if mem f (s_user_defs s) then vvvv ("Ignoring function '" +++ f +++ "' because it's user-defined!")
      else if is_excluded_kwarg cfg f (kw_text k)
           then vv_msg ("Excluding kwarg: " +++ f +++ "(" +++ kw_text k +++ ")")
      else if existsb (kw_eqb (f, k)) (s_kwargs s) then nop
      else upd (fun s => u_kwargs (s_kwargs s ++ [(f, k)]) s) >> add_lc (EKw f k) line None).

  (** source_visitor.py:656-668 [__add_user_func_deco]. *)
  Definition add_user_func_deco (d : string) (line : Z) : act :=
    rd (fun s =>
      if mem d (s_user_defs s)
      then vvvv ("Ignoring user function decorator '" +++ d +++ "' because it's user-defined!")
      else if is_excluded cfg d then vv_msg ("Excluding user function decorator: " +++ d)
      else if has_key d decorator_user_functions
           then upd (fun s => u_ufds (s_ufds s ++ [d]) s) >> add_lc (EStr d) line None
           else nop).

  (** source_visitor.py:670-676 [__add_strftime_directive], [__add_bytes_directive]. *)
  Definition add_strftime_directive (g : string) (line : Z) : act :=
    upd (fun s => u_strftimes (s_strftimes s ++ [g]) s) >> add_lc (EStr g) line None.
  Definition add_bytes_directive (g : string) (line : Z) : act :=
    upd (fun s => u_bytesdirs (s_bytesdirs s ++ [g]) s) >> add_lc (EStr g) line None.

  (** source_visitor.py:874-877 [__add_array_typecode]. *)
  Definition add_array_typecode (t : string) (line col : Z) : act :=
    rd (fun s =>
      if mem t (s_typecodes s) then nop
      else upd (fun s => u_typecodes (s_typecodes s ++ [t]) s) >> add_lc (EStr t) line (Some col)).

  Definition add_lc_val (v : pyval) (line : Z) : act :=
    match v with VStr s => add_lc (EStr s) line None | _ => nop end.

  (** source_visitor.py:686-691: one error handler name (any constant). *)
  Definition add_ceh (v : pyval) (line : Z) : act :=
    if is_excluded_ceh cfg (const_text v)
    then vv_msg ("Excluding codecs error handler: " +++ const_text v)
    else upd (fun s => u_cehs (s_cehs s ++ [v]) s) >> add_lc_val v line.

  (** source_visitor.py:710-715: one encoding name. *)
  Definition add_cenc (v : pyval) (line : Z) : act :=
    if is_excluded_ce cfg (const_text v)
    then vv_msg ("Excluding codecs encoding: " +++ const_text v)
    else upd (fun s => u_cencs (s_cencs s ++ [v]) s) >> add_lc_val v line.

  Definition when_const (v : pyval) (f : pyval -> act) : act :=
    match const_val v with Some c => f c | None => nop end.
  Definition kw_arg_in (names : list string) (kw : pyval) : bool :=
    match as_ostr (attr "arg" kw) with Some a => mem a names | None => false end.

  (** source_visitor.py:678-701 [__add_codecs_error_handler]. *)
  Definition add_codecs_error_handler (func : string) (args kws : list pyval) (line : Z) : act :=
    match assoc func codecs_errors_indices with
    | None => nop
    | Some idx =>
        match nth_error args idx with
        | Some a => when_const a (fun v => add_ceh v line)
        | None => nop
        end >>
        each (fun kw => when (kw_arg_in ["errors"] kw)
                             (when_const (attr "value" kw) (fun v => add_ceh v line))) kws
    end.

  (** source_visitor.py:703-725 [__add_codecs_encoding]. An excluded positional name skips the
      keywords of that index ("continue", line 713). *)
  Definition add_codecs_encoding (func : string) (args kws : list pyval) (line : Z) : act :=
    match assoc func codecs_encodings_indices with
    | None => nop
    | Some idxs =>
        each (fun idx =>
          let kwact :=
            each (fun kw => when (kw_arg_in codecs_encodings_kwargs kw)
                                 (when_const (attr "value" kw) (fun v => add_cenc v line))) kws in
          match option_map const_val (nth_error args idx) with
          | Some (Some v) => add_cenc v line >> when (negb (is_excluded_ce cfg (const_text v))) kwact
          | _ => kwact
          end) idxs
    end.

  (** source_visitor.py:727-729 [__check_codecs_function]. *)
  Definition check_codecs_function (func : string) (args kws : list pyval) (line : Z) : act :=
    add_codecs_error_handler func args kws line >> add_codecs_encoding func args kws line.

  (** source_visitor.py:740-741, 743-750 [__add_name_res], [__add_name_res_type]. *)
  Definition add_name_res (a b : string) : act := upd (fun s => u_name_res (dict_set a b (s_name_res s)) s).
  Definition add_name_res_type (a b : string) : act :=
    upd (fun s =>
      let old := match assoc a (s_name_res_type s) with Some l => l | None => [] end in
      u_name_res_type (dict_set a (set_add b old) (s_name_res_type s)) s).

  (** source_visitor.py:879-880 [__is_no_line]. *)
  Definition is_no_line (line : Z) : bool := existsb (Z.eqb line) (e_nolines e).

  Definition push_fn (n : string) : act := upd (fun s => u_fns (s_fns s ++ [n]) s).
  Definition pop_fn : act := upd (fun s => u_fns (removelast (s_fns s)) s).

  (** ** Assignments *)

  (** source_visitor.py:811-852: value name and type name of an assigned value. *)
  Definition assigned_name (man : list (string * string)) (v : pyval) : res (option string * option string) :=
    match v with
    | VNode KCall _ _ fs =>
        let func := fld "func" fs in
        match name_id func with
        | Some i => Ok (Some i, None)
        | None => if is_kind KAttribute func then mapr (fun d => (Some d, None)) (dotted_attr man func)
                  else Ok (None, None)
        end
    | VNode KAttribute _ _ _ => mapr (fun d => (Some d, None)) (dotted_attr man v)
    | VNode KDict _ _ _ => Ok (Some "dict", None)
    | VNode KSet _ _ _ => Ok (Some "set", None)
    | VNode KList _ _ _ => Ok (Some "list", None)
    | VNode KConstant _ _ fs =>
        Ok (match fld "value" fs with
            | VStr _ => (Some "str", None)
            | VInt _ => (Some "int", None)
            | VFloat _ => (Some "float", None)
            | VBytes _ => (Some "bytes", None)
            | VBool _ => (Some "int", None)
            | VNone => (None, Some "None")
            | _ => (None, None)
            end)
    | VNode KName _ _ fs => Ok (None, Some (fstr "id" fs))
    | _ => Ok (None, None)
    end.

  (** source_visitor.py:807-868 [__add_name_res_assign_node]. *)
  Definition add_name_res_assign (targets : list pyval) (value : pyval) : act :=
    rd (fun s =>
      with_res (assigned_name (s_module_as_name s) value) (fun vt =>
        each (fun t =>
          match name_id t with
          | None => nop
          | Some n =>
              match vt with
              | (Some v, _) => add_name_res n v
              | (None, Some ty) => add_name_res_type n ty
              | (None, None) => nop
              end
          end) targets)).

  (** ** Traversal *)

  (** source_visitor.py:901-908 [generic_visit] with __nprint (573-575). *)
  Definition generic_visit (v : pyval) (ks : list (string * ksem)) : act :=
    match pos_of v with Some (l, _) => upd (u_line l) | None => nop end >>
    upd (fun s => u_depth (s_depth s + 1) s) >>
    when (c_print_visits cfg && negb (c_quiet cfg))
      (upd (fun s => u_out (s_out s ++ [srepeat "| " (Z.to_nat (s_depth s)) +++ e_dump e v]) s)) >>
    visit_fields ks >>
    upd (fun s => u_depth (s_depth s - 1) s).

  (** Skipping lines with novermin comments. *)
  Definition unless_no_line (line : Z) (a : act) : act := if is_no_line line then nop else a.

  (** Copying and restoring user definitions around an action (source_visitor.py:1675-1685,
      1747-1749, 1884-1895, 1905-1914, 1971-2013, 2116-2136). *)
  Definition scoped (a : act) : act :=
    fun s => match a s with Ok s' => Ok (u_user_defs (s_user_defs s) s') | Err x => Err x end.

  (** source_visitor.py:910-921 [visit_Import]. *)
  Definition visit_import (pos : option (Z * Z)) (fs : list (string * pyval)) : act :=
    let line := pos_line pos in
    let col := Some (pos_col pos + 7) in
    unless_no_line line
      (each (fun a =>
         let name := as_str (attr "name" a) in
         add_module name line col >> add_member name line col >>
         match as_ostr (attr "asname" a) with
         | Some n => upd (fun s => u_module_as_name (dict_set n name (s_module_as_name s)) s) >> add_user_def n
         | None => nop
         end) (flist "names" fs)).

  (** source_visitor.py:923-954 [visit_ImportFrom]. *)
  Definition visit_import_from (pos : option (Z * Z)) (fs : list (string * pyval)) : act :=
    match fld "module" fs with
    | VStr module =>
        if match fld "level" fs with VInt n => 0 <? n | _ => false end then nop
        else
          let line := pos_line pos in
          let col := Some (pos_col pos + 5) in
          unless_no_line line
            (add_module module line col >>
             each (fun a =>
               let name := as_str (attr "name" a) in
               (if String.eqb name "*" then nop
                else upd (fun s => u_import_mem_mod (dict_set name module (s_import_mem_mod s)) s) >>
                     add_module (module +++ "." +++ name) line col >>
                     add_member (module +++ "." +++ name) line col >>
                     add_member name line col) >>
               match as_ostr (attr "asname" a) with
               | Some n => upd (fun s => u_module_as_name (dict_set n (module +++ "." +++ name) (s_module_as_name s)) s)
                           >> add_user_def n
               | None => nop
               end) (flist "names" fs))
    | _ => nop
    end.

  (** source_visitor.py:956-967 [visit_Name]. *)
  Definition visit_name (fs : list (string * pyval)) : act :=
    let id := fstr "id" fs in
    if String.eqb id "long" then
      rd (fun s =>
        if is_excluded cfg "long" then vv_msg "Excluding long type"
        else if mem "long" (s_user_defs s) then vvvv "Ignoring member 'long' because it's user-defined!"
        else set_flag FLongV2 >> vv_msg "long is a v2 feature")
    else if mem id ["True"; "False"]
         then set_flag FBoolConst >> vvv "True/False constant" (Some (2, 3), Some (3, 0))
         else nop.

  Definition gen_unpacking : act :=
    set_flag FGenUnpacking >> vv "generalized unpacking" (None, Some (3, 5)).

  (** Positions of the elements satisfying a test. *)
  Fixpoint positions {A} (f : A -> bool) (i : nat) (l : list A) : list nat :=
    match l with [] => [] | x :: r => if f x then i :: positions f (S i) r else positions f (S i) r end.

  (** source_visitor.py:990-994 [check_gen_unp] as a test. *)
  Definition needs_gen_unp {A} (f : A -> bool) (l : list A) : bool :=
    let pos := positions f 0 l in
    (1 <? List.length pos)%nat || existsb (fun p => (p <? List.length l - 1)%nat) pos.

  Definition is_kw_unpack (kw : pyval) : bool := is_none (attr "arg" kw) && negb (is_none (attr "value" kw)).

  (** source_visitor.py:981-1025 [__check_generalized_unpacking], by node class. *)
  Definition check_gen_unp_call (args kws : list pyval) : act :=
    if needs_gen_unp is_valid_star_unpack args then gen_unpacking
    else when (needs_gen_unp is_kw_unpack kws) gen_unpacking.
  Definition check_gen_unp_seq (elts : list pyval) : act :=
    when (existsb is_valid_star_unpack elts) gen_unpacking.
  Definition check_gen_unp_dict (keys vals : list pyval) : act :=
    when (existsb (fun kv => is_none (fst kv) && negb (is_none (snd kv))) (combine keys vals)) gen_unpacking.

  Definition add_typecodes (args : list pyval) (line col : Z) : act :=
    each (fun a => match str_val a with Some t => add_array_typecode t line col | None => nop end) args.

  (** source_visitor.py:1042-1070: the callee is a name. *)
  Definition call_name (id : string) (line col : Z) (args kws : list pyval) : act :=
    push_fn id >> add_member id line (Some col) >>
    rd (fun s =>
      match assoc id (s_import_mem_mod s) with
      | Some m => check_codecs_function (m +++ "." +++ id) args kws line
      | None =>
          match assoc id (s_module_as_name s) with
          | Some m => check_codecs_function m args kws line
          | None => nop
          end
      end) >>
    rd (fun s =>
      if String.eqb id "print" then set_flag FPrintV3
      else if String.eqb id "array" ||
              match assoc id (s_module_as_name s) with Some m => String.eqb m "array.array" | None => false end
           then add_typecodes args line (col + 6)
      else if String.eqb id "pow" && (List.length args =? 3)%nat
           then match args with
                | [a; b; c] =>
                    when (is_int_node a && is_neg_int_node b && is_int_node c)
                      (set_flag FModInversePow >> vv "modular inverse pow()" (None, Some (3, 8)))
                | _ => nop
                end
      else if String.eqb id "super" && (List.length args =? 0)%nat
           then set_flag FSuperNoArgs >> vv_pl "super() without arguments" (None, Some (3, 0)) false
      else nop).

  (** The text of a constant as the directive regex sees it; anything but a str raises TypeError. *)
  Definition strftime_arg (line : Z) (v : pyval) : act :=
    when_const v (fun c =>
      match c with
      | VStr s => each (fun d => add_strftime_directive d line) (find_directives s)
      | _ => fail TypeError
      end).

  (** source_visitor.py:1071-1093: the callee is an attribute. *)
  Definition call_attribute (func : pyval) (line col : Z) (args kws : list pyval) : act :=
    let at_ := as_str (attr "attr" func) in
    match str_val (attr "value" func) with
    | Some t =>
        if String.eqb at_ "format" && contains "{}" t
        then when (format27_search false t)
               (vv "`""..{}.."".format(..)`" (Some (2, 7), Some (3, 0)) >> set_flag FFormat27)
        else when (mem at_ ["strftime"; "strptime"]) (each (strftime_arg line) args)
    | None => when (mem at_ ["strftime"; "strptime"]) (each (strftime_arg line) args)
    end >>
    rd (fun s =>
      with_res (dotted_attr (s_module_as_name s) func) (fun d =>
        push_fn d >> check_codecs_function d args kws line >>
        when (String.eqb d "array.array") (add_typecodes args line (col + 12)))).

  (** source_visitor.py:1035-1097 [visit_Call]. *)
  Definition visit_call (v : pyval) (pos : option (Z * Z)) (fs : list (string * pyval))
             (ks : list (string * ksem)) : act :=
    let line := pos_line pos in
    let args := flist "args" fs in
    let kws := flist "keywords" fs in
    unless_no_line line
      (match fld "func" fs with
       | VNode KName _ _ ffs => call_name (fstr "id" ffs) line (pos_col pos) args kws
       | VNode KAttribute _ _ _ => call_attribute (fld "func" fs) line (pos_col pos) args kws
       | _ => nop
       end >>
       check_gen_unp_call args kws >>
       generic_visit v ks >>
       pop_fn).

  (** source_visitor.py:1104-1109: one module of the loop. *)
  Definition attr_module (full : list (option string)) (line : Z) (m : string) : act :=
    rd (fun s =>
      if hd_is (Some m) full then add_module (dotted full) line None
      else match full with
           | Some h :: _ =>
               match assoc h (s_import_mem_mod s) with
               | Some mm => add_member (dotted (Some mm :: full)) line None
               | None => nop
               end
           | _ => nop
           end).

  (** source_visitor.py:1112-1129 *)
  Definition attr_resolve (full : list (option string)) (line : Z) : act :=
    rd (fun s =>
      match full with
      | Some h :: tl =>
          match assoc h (s_name_res s) with
          | None => nop
          | Some r =>
              match assoc r (s_import_mem_mod s) with
              | Some mm => add_member (dotted (Some mm :: Some r :: tl)) line None
              | None => add_member (dotted (Some r :: tl)) line None
              end >>
              rd (fun s =>
                match split_char "." r with
                | p0 :: ps =>
                    match assoc p0 (s_name_res s) with
                    | Some r2 => add_member (dotted (Some r2 :: map Some ps ++ tl)) line None
                    | None => nop
                    end
                | [] => nop
                end)
          end
      | _ => nop
      end).

  (** source_visitor.py:1099-1130 [visit_Attribute]. The loop over [modules] sees what it appends:
      at most the dotted name itself, which appends nothing more. *)
  Definition visit_attribute (v : pyval) (ks : list (string * ksem)) : act :=
    let line := lineno v in
    rd (fun s0 =>
      with_res (get_attribute_name (s_module_as_name s0) v) (fun full =>
        when (negb (List.length full =? 0)%nat)
          (each (attr_module full line) (s_modules s0) >>
           rd (fun s1 => each (attr_module full line) (skipn (List.length (s_modules s0)) (s_modules s1))) >>
           add_member (dotted full) line None >>
           attr_resolve full line))) >>
    generic_visit v ks.

  (** source_visitor.py:1136-1162: the function a keyword is attributed to, for one stack entry. *)
  Definition kw_function (s : st) (func : string) : string :=
    match assoc func (s_import_mem_mod s) with
    | Some m => dotted [Some m; Some func]
    | None =>
        match split_char "." func with
        | p0 :: ps =>
            match assoc p0 (s_import_mem_mod s) with
            | Some m => dotted [Some m; Some func]
            | None =>
                match assoc p0 (s_name_res s) with
                | Some r =>
                    match assoc r (s_import_mem_mod s) with
                    | Some m => dotted (Some m :: Some r :: map Some ps)
                    | None => dotted (Some r :: map Some ps)
                    end
                | None => func
                end
            end
        | [] => func
        end
    end.

  (** source_visitor.py:1132-1166 [visit_keyword]. Adding keywords changes nothing that decides which
      function or whether it is accepted, so both are read at the start. *)
  Definition visit_keyword (v : pyval) (fs : list (string * pyval)) (ks : list (string * ksem)) : act :=
    let k := as_ostr (fld "arg" fs) in
    rd (fun s0 =>
      each (fun func => add_kwargs (kw_function s0 func) k (s_line s0)) (s_fns s0) >>
      when (existsb (fun func => kw_accepted s0 (kw_function s0 func) k) (s_fns s0)) (generic_visit v ks)).

  (** source_visitor.py:1202-1216 [__resolve_full_name]; [None]: no name. *)
  Definition resolve_full_name (s : st) (v : pyval) : res (option string) :=
    letr n :=
      match v with
      | VNode KName _ _ fs => Ok (Some (fstr "id" fs))
      | VNode KCall _ _ fs => Ok (name_id (fld "func" fs))
      | VNode KAttribute _ _ _ => mapr Some (dotted_attr (s_module_as_name s) v)
      | _ => Ok None
      end in
    Ok (match n with
        | None => None
        | Some n =>
            let n := match assoc n (s_name_res s) with Some r => r | None => n end in
            match assoc n (s_module_as_name s) with
            | Some m => Some m
            | None =>
                match assoc n (s_import_mem_mod s) with
                | Some m => Some (dotted [Some m; Some n])
                | None => Some n
                end
            end
        end).

  Definition in_types (o : option string) (l : list string) : bool :=
    match o with Some n => mem n l | None => false end.

  (** The name of a Name or Attribute (source_visitor.py:1252-1256, 1545-1549). *)
  Definition operand_name (s : st) (v : pyval) : res (option string) :=
    match v with
    | VNode KName _ _ fs => Ok (Some (fstr "id" fs))
    | VNode KAttribute _ _ _ => mapr Some (dotted_attr (s_module_as_name s) v)
    | _ => Ok None
    end.

  (** source_visitor.py:1249-1259 [is_none_or_name]. *)
  Definition is_none_or_name (s : st) (v : pyval) : res bool :=
    if is_none_node v then Ok true
    else letr n := operand_name s v in
         Ok (match n with
             | None => false
             | Some n => (negb (has_key n (s_name_res s)) && negb (mem n (s_user_defs s)))
                         || has_key n (s_name_res_type s)
             end).

  Definition and_res (a b : res bool) : res bool :=
    match a with Ok true => b | Ok false => Ok false | Err x => Err x end.

  (** source_visitor.py:1218-1266 [visit_BinOp]. *)
  Definition visit_binop (v : pyval) (fs : list (string * pyval)) (ks : list (string * ksem)) : act :=
    let left := fld "left" fs in
    let right := fld "right" fs in
    let op := fld "op" fs in
    let line := lineno v in
    when (is_bytes_node left && is_kind KMod op)
      (set_flag FBytesFormat >> vv "bytes `%` formatting or `str` synonym" (Some (2, 6), Some (3, 5))) >>
    when (is_kind KCall left && ostr_eqb (name_id (attr "func" left)) (Some "bytearray") && is_kind KMod op)
      (set_flag FBytearrayFormat >> vv "bytearray `%` formatting" (None, Some (3, 5))) >>
    when (is_kind KBitOr op)
      (rd (fun s =>
         with_res (resolve_full_name s left) (fun ln =>
         with_res (resolve_full_name s right) (fun rn =>
           when ((is_dict (s_name_res s) left || in_types ln dict_union_supported_types) &&
                 (is_dict (s_name_res s) right || in_types rn dict_union_supported_types))
             (set_flag FDictUnion >> vvl "dict union (dict | dict)" line (None, Some (3, 9)))))) >>
       when (union_types_enabled e)
         (rd (fun s =>
            with_res (and_res (is_none_or_name s left) (is_none_or_name s right)) (fun b =>
              when b (set_flag FUnionTypes >> vvl_pl "union types as `X | Y`" line (None, Some (3, 10))))))) >>
    generic_visit v ks.

  (** source_visitor.py:2177-2182 [visit_Ellipsis]. *)
  Definition visit_ellipsis (uid : N) : act :=
    rd (fun s =>
      if existsb (N.eqb uid) (s_ellipsis s) then nop
      else set_flag FEllipsis >> vv_pl "ellipsis literal (`...`) out of slices" (None, Some (3, 0)) false).

  (** source_visitor.py:1268-1284 [visit_Constant]. *)
  Definition visit_constant (uid : N) (pos : option (Z * Z)) (fs : list (string * pyval)) : act :=
    match fld "value" fs with
    | VBytes b =>
        set_flag FBytesV3 >> vv "byte string (b'..') or `str` synonym" (Some (2, 6), Some (3, 0)) >>
        each (fun d => add_bytes_directive d (pos_line pos)) (find_directives (const_text (VBytes b)))
    | VBool _ => set_flag FBoolConst >> vvv "True/False constant" (Some (2, 3), Some (3, 0))
    | VEllipsis => visit_ellipsis uid
    | _ => nop
    end.

  (** source_visitor.py:1502-1524 [visit_JoinedStr]. *)
  Definition visit_joinedstr (v : pyval) (ks : list (string * ksem)) : act :=
    set_flag FFstrings >> vv "f-strings" (None, Some (3, 6)) >>
    when (fstring_self_doc_enabled e)
      (rd (fun s => with_res (e_selfdoc e (s_module_as_name s) v) (fun b =>
         when b (set_flag FFstringsSelfDoc >> vv "self-documenting fstrings" (None, Some (3, 8)))))) >>
    generic_visit v ks.

  Definition add_target_defs (v : pyval) : act := each add_user_def_node (assign_target_walk v).

  (** source_visitor.py:1527-1534 [visit_Assign]. *)
  Definition visit_assign (v : pyval) (fs : list (string * pyval)) (ks : list (string * ksem)) : act :=
    unless_no_line (lineno v)
      (each add_target_defs (flist "targets" fs) >>
       add_name_res_assign (flist "targets" fs) (fld "value" fs) >>
       generic_visit v ks).

  (** source_visitor.py:1544-1556 [is_union_type]. *)
  Definition is_union_type (s : st) (v : pyval) : res bool :=
    letr n := operand_name s v in
    Ok (match n with
        | None => false
        | Some n =>
            (negb (has_key n (s_name_res s)) && negb (mem n (s_user_defs s))) ||
            match assoc n (s_name_res_type s) with
            | Some l => (1 <? List.length l)%nat || (negb (has_key n (s_name_res s)) && mem n (s_user_defs s))
            | None => false
            end
        end).

  (** source_visitor.py:1536-1581 [visit_AugAssign]. *)
  Definition visit_augassign (v : pyval) (fs : list (string * pyval)) (ks : list (string * ksem)) : act :=
    let target := fld "target" fs in
    let value := fld "value" fs in
    let line := lineno v in
    unless_no_line line
      (add_user_def_node target >> add_name_res_assign [target] value >>
       when (is_kind KBitOr (fld "op" fs))
         (rd (fun s =>
            if is_dict (s_name_res s) value then
              with_res (resolve_full_name s target) (fun n =>
                when (in_types n dict_union_merge_supported_types || is_dict (s_name_res s) target)
                  (set_flag FDictUnionMerge >> vvl "dict union merge (dict var |= dict)" line (None, Some (3, 9))))
            else
              when (union_types_enabled e)
                (with_res (and_res (is_union_type s target) (is_union_type s value)) (fun b =>
                   when b (set_flag FUnionTypes >>
                           vvl_pl "union types as `a = X; a |= Y`" line (None, Some (3, 10))))))) >>
       generic_visit v ks).

  (** An annotation that is the name, or a subscript of the name (source_visitor.py:1597-1604,
      1712-1714). *)
  Definition ann_is (n : string) (ann : pyval) : bool :=
    ostr_eqb (name_id ann) (Some n) ||
    (is_kind KSubscript ann && ostr_eqb (name_id (attr "value" ann)) (Some n)).

  (** source_visitor.py:1583-1606 [visit_AnnAssign]. *)
  Definition visit_annassign (v : pyval) (fs : list (string * pyval)) (ks : list (string * ksem)) : act :=
    let line := lineno v in
    let ann := fld "annotation" fs in
    unless_no_line line
      (add_user_def_node (fld "target" fs) >>
       add_name_res_assign [fld "target" fs] (fld "value" fs) >>
       (if c_eval_annotations cfg then generic_visit v ks else set_flag FMaybeAnnotations) >>
       set_flag FAnnotations >> set_flag FVarAnnotations >>
       vvl "variable annotations" line (None, Some (3, 6)) >>
       (if ann_is "Final" ann
        then set_flag FFinalAnnotations >> vvl "final variable annotations" line (None, Some (3, 8))
        else when (ann_is "Literal" ann)
               (set_flag FLiteralAnnotations >> vvl "literal variable annotations" line (None, Some (3, 8))))).

  Definition plain_deco_node (n : pyval) : bool := is_kind KName n || is_kind KAttribute n || is_kind KLoad n.

  (** source_visitor.py:1608-1621 [__check_relaxed_decorators]. *)
  Definition is_relaxed_deco (d : pyval) : bool :=
    existsb (fun n => negb (plain_deco_node n)) (walk (if is_kind KCall d then attr "func" d else d)).
  Definition check_relaxed_decorators (decos : list pyval) : act :=
    each (fun d => unless_no_line (lineno d)
            (when (is_relaxed_deco d)
               (set_flag FRelaxedDecorators >> vvl "relaxed decorators" (lineno d) (None, Some (3, 9))))) decos.

  (** source_visitor.py:1635-1638 *)
  Definition deco_full_name (s : st) (n : string) : string :=
    match assoc n (s_import_mem_mod s) with
    | Some m => dotted [Some m; Some n]
    | None => match assoc n (s_module_as_name s) with Some m => m | None => n end
    end.

  (** source_visitor.py:1623-1639 [__check_user_func_decorators]. *)
  Definition check_user_func_decorators (decos : list pyval) : act :=
    each (fun d => unless_no_line (lineno d)
            (rd (fun s =>
               with_res (operand_name s d) (fun n =>
                 match n with
                 | Some n => add_user_func_deco (deco_full_name s n) (lineno d)
                 | None => nop
                 end)))) decos.

  (** source_visitor.py:1664-1671, 1765-1772: the line of the first decorator that counts. *)
  Definition first_deco_line (decos : list pyval) : option Z :=
    find (fun l => negb (is_no_line l)) (map lineno decos).

  (** The node with its return annotation removed (source_visitor.py:1680-1681). *)
  Definition without_returns (v : pyval) : pyval :=
    match v with
    | VNode k u p fs =>
        VNode k u p (map (fun fx => if String.eqb (fst fx) "returns" then (fst fx, VNone) else fx) fs)
    | _ => v
    end.
  Definition drop_returns (ks : list (string * ksem)) : list (string * ksem) :=
    map (fun fk => if String.eqb (fst fk) "returns" then (fst fk, KOther) else fk) ks.

  (** source_visitor.py:1705-1721: annotations of the arguments. *)
  Fixpoint arg_annotations (line : Z) (args : list pyval) : act :=
    match args with
    | [] => nop
    | a :: r =>
        let ann := attr "annotation" a in
        let lit :=
          if c_eval_annotations cfg
          then set_flag FLiteralAnnotations >> vvl "literal variable annotations" line (None, Some (3, 8))
          else set_flag FMaybeAnnotations in
        if is_none ann then arg_annotations line r
        else
          set_flag FAnnotations >> vvl "annotations" line (None, Some (3, 0)) >>
          (if ann_is "Literal" ann then lit
           else rd (fun s =>
                  with_res (dotted_attr (s_module_as_name s) ann) (fun d =>
                    if mem d ["Literal"; "typing.Literal"] then lit else arg_annotations line r)))
    end.

  (** source_visitor.py:1641-1723 [__handle_FunctionDef] past the novermin test. *)
  Definition handle_functiondef (v : pyval) (fs : list (string * pyval)) (ks : list (string * ksem)) : act :=
    let line := lineno v in
    let name := fstr "name" fs in
    let args := fld "args" fs in
    let decos := flist "decorator_list" fs in
    let returns := fld "returns" fs in
    add_user_def name >>
    rd (fun s =>
      when ((s_depth s =? 1) && is_init_file e &&
            (List.length (as_list (attr "posonlyargs" args)) =? 0)%nat &&
            (List.length (as_list (attr "kwonlyargs" args)) =? 0)%nat &&
            is_none (attr "kwarg" args))
        (if String.eqb name "__dir__" && (List.length (as_list (attr "args" args)) =? 0)%nat
         then set_flag FModuleDir >> vvl_msg "module `__dir__()` supported by `dir()` since 3.7" line
         else when (String.eqb name "__getattr__" && (List.length (as_list (attr "args" args)) =? 1)%nat)
                (set_flag FModuleGetattr >>
                 vvl_msg "module `__getattr__(name)` supported through lookup since 3.7" line))) >>
    match first_deco_line decos with
    | Some dl =>
        set_flag FFuncDecorators >> vvl "function decorators" dl (Some (2, 4), Some (3, 0)) >>
        check_relaxed_decorators decos >> check_user_func_decorators decos
    | None => nop
    end >>
    scoped (if negb (c_eval_annotations cfg) && negb (is_none returns)
            then generic_visit (without_returns v) (drop_returns ks)
            else generic_visit v ks) >>
    (if negb (is_none returns)
     then set_flag FAnnotations >> vvl "annotations" line (None, Some (3, 0))
     else arg_annotations line (as_list (attr "args" args))).

  (** source_visitor.py:1725-1729 [visit_FunctionDef]. *)
  Definition visit_functiondef (v : pyval) (fs : list (string * pyval)) (ks : list (string * ksem)) : act :=
    unless_no_line (lineno v)
      (rd (fun s0 => handle_functiondef v fs ks >> upd (u_seen_yield (s_seen_yield s0)))).

  (** source_visitor.py:1731-1744 [visit_AsyncFunctionDef]. *)
  Definition visit_asyncfunctiondef (v : pyval) (fs : list (string * pyval)) (ks : list (string * ksem)) : act :=
    let line := lineno v in
    unless_no_line line
      (rd (fun s0 =>
         handle_functiondef v fs ks >>
         set_flag FCoroutines >> vvl_pl "coroutines (async)" line (None, Some (3, 5)) >>
         rd (fun s => when ((s_seen_yield s0 <? s_seen_yield s) && (s_seen_await s0 <? s_seen_await s))
                        (set_flag FAsyncGenerator >>
                         vvl_pl "async generators (await and yield in same func)" line (None, Some (3, 6)))) >>
         upd (u_seen_await (s_seen_await s0)) >> upd (u_seen_yield (s_seen_yield s0)))).

  (** source_visitor.py:1751-1757 [visit_Await]. *)
  Definition visit_await (v : pyval) (ks : list (string * ksem)) : act :=
    unless_no_line (lineno v)
      (set_flag FCoroutines >> vv_pl "coroutines (await)" (None, Some (3, 5)) true >>
       upd (fun s => u_seen_await (s_seen_await s + 1) s) >>
       generic_visit v ks).

  (** source_visitor.py:1759-1784 [visit_ClassDef]. *)
  Definition visit_classdef (v : pyval) (fs : list (string * pyval)) (ks : list (string * ksem)) : act :=
    let name := fstr "name" fs in
    let decos := flist "decorator_list" fs in
    unless_no_line (lineno v)
      (add_user_def name >> add_name_res_type name name >>
       match first_deco_line decos with
       | Some dl =>
           set_flag FClassDecorators >> vvl "class decorators" dl (Some (2, 6), Some (3, 0)) >>
           check_relaxed_decorators decos
       | None => nop
       end >>
       each (fun kw => when (kw_arg_in ["metaclass"] kw)
                         (set_flag FMetaclass >> vv "'metaclass' class keyword" (None, Some (3, 0))))
            (flist "keywords" fs) >>
       generic_visit v ks >>
       each k_gvisit (k_list (kid "body" ks))).

  (** source_visitor.py:1791-1797 [visit_NamedExpr]. *)
  Definition visit_namedexpr (v : pyval) (fs : list (string * pyval)) (ks : list (string * ksem)) : act :=
    unless_no_line (lineno v)
      (add_user_def_node (fld "target" fs) >> set_flag FNamedExprs >>
       vv "named expressions" (None, Some (3, 8)) >> generic_visit v ks).

  Definition add_arg_def (a : pyval) : act :=
    when (negb (is_none a)) (add_user_def_node (attr "arg" a)).

  (** source_visitor.py:1799-1825 [visit_arguments]. *)
  Definition visit_arguments (v : pyval) (fs : list (string * pyval)) (ks : list (string * ksem)) : act :=
    let po := flist "posonlyargs" fs in
    let ko := flist "kwonlyargs" fs in
    when (negb (List.length po =? 0)%nat)
      (set_flag FPosOnlyArgs >> vv "positional-only parameters" (None, Some (3, 8))) >>
    when (negb (List.length ko =? 0)%nat)
      (set_flag FKwOnlyArgs >> vv "keyword-only parameters" (None, Some (3, 0))) >>
    each add_arg_def (flist "args" fs ++ po ++ ko ++ [fld "vararg" fs; fld "kwarg" fs]) >>
    generic_visit v ks.

  (** source_visitor.py:1827-1839, 2094-2099, 2184-2189 [visit_Nonlocal], [visit_YieldFrom],
      [visit_Match], [visit_TypeAlias]. *)
  Definition visit_nonlocal (v : pyval) (ks : list (string * ksem)) : act :=
    unless_no_line (lineno v)
      (set_flag FNonlocal >> vv "`nonlocal`" (None, Some (3, 0)) >> generic_visit v ks).
  Definition visit_yieldfrom (v : pyval) (ks : list (string * ksem)) : act :=
    unless_no_line (lineno v)
      (set_flag FYieldFrom >> vv "`yield from`" (None, Some (3, 3)) >> generic_visit v ks).
  Definition visit_match (v : pyval) (ks : list (string * ksem)) : act :=
    unless_no_line (lineno v)
      (set_flag FPatternMatching >> vvl "pattern matching" (lineno v) (None, Some (3, 10)) >> generic_visit v ks).
  Definition visit_typealias (v : pyval) (ks : list (string * ksem)) : act :=
    unless_no_line (lineno v)
      (set_flag FTypeAlias >> vv_pl "type alias statement (`type X = SomeType`)" (None, Some (3, 12)) false >>
       generic_visit v ks).

  (** source_visitor.py:1841-1845 [visit_Yield]. *)
  Definition visit_yield (v : pyval) (ks : list (string * ksem)) : act :=
    unless_no_line (lineno v)
      (upd (fun s => u_seen_yield (s_seen_yield s + 1) s) >> generic_visit v ks).

  (** source_visitor.py:1865-1869, 1889-1892: names used as members. *)
  Definition add_names_as_members (v : pyval) : act :=
    each (fun n => match name_id n with
                   | Some i => add_member i (lineno n) (Some (col_offset n))
                   | None => nop
                   end) (walk v).

  (** source_visitor.py:1847-1871 [visit_Raise]. *)
  Definition visit_raise (v : pyval) (fs : list (string * pyval)) (ks : list (string * ksem)) : act :=
    let cause := fld "cause" fs in
    let line := lineno v in
    unless_no_line line
      (when (negb (is_none cause))
         (set_flag FRaiseCause >> vvl "exception cause" line (None, Some (3, 0)) >>
          when (is_none_node cause)
            (set_flag FRaiseFromNone >> vvl "raise ... from None" line (None, Some (3, 3)))) >>
       add_names_as_members (fld "exc" fs) >> add_names_as_members cause >>
       generic_visit v ks).

  (** source_visitor.py:1877-1880: the source text of an except* clause. *)
  Definition is_except_star (line col : Z) : bool :=
    match source_line line col with
    | Some t => startswith "except" t && startswith "*" (lstrip (sdrop 6 t))
    | None => false
    end.

  (** source_visitor.py:1873-1895 [visit_ExceptHandler]. *)
  Definition visit_excepthandler (v : pyval) (fs : list (string * pyval)) (ks : list (string * ksem)) : act :=
    let line := lineno v in
    unless_no_line line
      (when (is_except_star line (col_offset v))
         (set_flag FExceptStar >> vvl "`except*`" line (None, Some (3, 11))) >>
       scoped (add_user_def_node (fld "name" fs) >> add_names_as_members (fld "type" fs) >>
               generic_visit v ks)).

  (** source_visitor.py:1903-1914 [__handle_comprehensions], [visit_ListComp], [visit_GeneratorExp]. *)
  Definition comp_scope (v : pyval) (fs : list (string * pyval)) (ks : list (string * ksem)) : act :=
    scoped (each (fun c => add_target_defs (attr "target" c)) (flist "generators" fs) >>
            generic_visit v ks).

  (** source_visitor.py:1916-1922, 1929-1935 [visit_SetComp], [visit_DictComp]. *)
  Definition visit_setcomp (v : pyval) (fs : list (string * pyval)) (ks : list (string * ksem)) : act :=
    set_flag FSetComp >> vv "set comprehensions" (Some (2, 7), Some (3, 0)) >> comp_scope v fs ks.
  Definition visit_dictcomp (v : pyval) (fs : list (string * pyval)) (ks : list (string * ksem)) : act :=
    set_flag FDictComp >> vv "dict comprehensions" (Some (2, 7), Some (3, 0)) >> comp_scope v fs ks.

  (** source_visitor.py:1937-1949 [visit_comprehension]. *)
  Definition visit_comprehension (v : pyval) (fs : list (string * pyval)) (ks : list (string * ksem)) : act :=
    when (match fld "is_async" fs with VInt n => n =? 1 | _ => false end)
      (set_flag FAsyncComprehension >> vv "async comprehensions" (None, Some (3, 7))) >>
    rd (fun s0 =>
      generic_visit v ks >>
      rd (fun s => when (s_seen_await s0 <? s_seen_await s)
                     (set_flag FAwaitInComprehension >> vv "await in comprehensions" (None, Some (3, 7)))) >>
      upd (u_seen_await (s_seen_await s0))).

  (** source_visitor.py:1953-1956 [visit_MatMult]. *)
  Definition visit_matmult (v : pyval) (ks : list (string * ksem)) : act :=
    set_flag FMatMult >> vv "infix matrix multiplication" (None, Some (3, 5)) >> generic_visit v ks.

  (** source_visitor.py:1958-1964 [visit_Continue]. *)
  Definition visit_continue (v : pyval) : act :=
    rd (fun s =>
      match rev (s_try_finally s) with
      | (f, w) :: _ =>
          when ((f =? s_seen_for s) && (w =? s_seen_while s))
            (set_flag FContinueInFinally >> vvl "continue in finally block" (lineno v) (None, Some (3, 8)))
      | [] => nop
      end).

  (** source_visitor.py:2000-2002: "with (" starting on the first of the lines. *)
  Definition has_with_paren (line : Z) : bool :=
    let lines := source_lines line (line + 10) in
    match with_paren_search 0 lines, splitlines lines with
    | Some i, l :: _ => (i <? String.length l)%nat
    | _, _ => false
    end.

  (** source_visitor.py:1966-2013 [__handle_with]. *)
  Definition handle_with (v : pyval) (fs : list (string * pyval)) (ks : list (string * ksem)) : act :=
    let items := flist "items" fs in
    let line := lineno v in
    scoped
      (each (fun it => add_target_defs (attr "optional_vars" it)) items >>
       when (1 <? List.length items)%nat
         (set_flag FMultiWithitem >>
          vvl_pl "multiple context expressions in a `with` statement" line (Some (2, 7), Some (3, 1)) >>
          when (has_with_paren line)
            (set_flag FWithParens >>
             vvl "multiple context expressions in a `with` statement with parentheses" line
                 (None, Some (3, 9)))) >>
       generic_visit v ks).

  (** source_visitor.py:2015-2027 [visit_With], [visit_AsyncWith]. *)
  Definition visit_with (v : pyval) (fs : list (string * pyval)) (ks : list (string * ksem)) : act :=
    unless_no_line (lineno v)
      (set_flag FWith >> vvl "`with`" (lineno v) (Some (2, 5), Some (3, 0)) >> handle_with v fs ks).
  Definition visit_asyncwith (v : pyval) (fs : list (string * pyval)) (ks : list (string * ksem)) : act :=
    unless_no_line (lineno v)
      (set_flag FAsyncWith >> vvl "`async with`" (lineno v) (None, Some (3, 5)) >> handle_with v fs ks).

  (** source_visitor.py:2029-2045 [visit_Dict], [visit_Tuple], [visit_List], [visit_Set]. *)
  Definition visit_dict (v : pyval) (fs : list (string * pyval)) (ks : list (string * ksem)) : act :=
    check_gen_unp_dict (flist "keys" fs) (flist "values" fs) >> generic_visit v ks.
  Definition visit_seq (v : pyval) (fs : list (string * pyval)) (ks : list (string * ksem)) : act :=
    check_gen_unp_seq (flist "elts" fs) >> generic_visit v ks.
  Definition visit_set (v : pyval) (fs : list (string * pyval)) (ks : list (string * ksem)) : act :=
    set_flag FSetLiterals >> vvl "set literals" (lineno v) (Some (2, 7), Some (3, 0)) >> visit_seq v fs ks.

  (** source_visitor.py:2052-2061 [match]. *)
  Definition generic_match (n : string) : act :=
    if c_eval_annotations cfg then
      rd (fun s =>
        if mem n (s_user_defs s) then vvvv ("Ignoring type '" +++ n +++ "' because it's user-defined!")
        else set_flag FBuiltinGeneric >>
             vv ("builtin generic type annotation (" +++ n +++ "[..])") (None, Some (3, 9)))
    else set_flag FMaybeAnnotations.

  (** source_visitor.py:2051-2075 *)
  Definition check_builtin_generic (value : pyval) : act :=
    rd (fun s =>
      with_res (operand_name s value) (fun n =>
        match n with
        | None => nop
        | Some n =>
            if mem n builtin_generic_annotation_types then generic_match n
            else match assoc n (s_import_mem_mod s) with
                 | Some m =>
                     let full := dotted [Some m; Some n] in
                     when (mem full builtin_generic_annotation_types) (generic_match full)
                 | None =>
                     match assoc n (s_name_res_type s) with
                     | Some ts => each (fun t => when (mem t builtin_generic_annotation_types) (generic_match t)) ts
                     | None => nop
                     end
                 end
        end)).

  (** source_visitor.py:2077-2090: ellipses directly in the slice. *)
  Definition slice_ellipses (sl : pyval) : list N :=
    (if is_ellipsis_node sl then [uid_of sl] else []) ++
    (if is_kind KTuple sl then map uid_of (filter is_ellipsis_node (as_list (attr "elts" sl))) else []).

  (** source_visitor.py:2047-2092 [visit_Subscript]. *)
  Definition visit_subscript (v : pyval) (fs : list (string * pyval)) (ks : list (string * ksem)) : act :=
    unless_no_line (lineno v)
      (check_builtin_generic (fld "value" fs) >>
       upd (fun s => u_ellipsis (s_ellipsis s ++ slice_ellipses (fld "slice" fs)) s) >>
       generic_visit v ks).

  (** source_visitor.py:2103-2109, 2173-2175 [visit_If], [visit_IfExp], [visit_BoolOp]. *)
  Definition visit_cond (v : pyval) (ks : list (string * ksem)) : act :=
    unless_no_line (lineno v) (generic_visit v ks).

  (** source_visitor.py:2125-2129: some element of the iterable is a dict. *)
  Definition iter_has_dict (nr : list (string * string)) (it : pyval) : bool :=
    existsb (is_dict nr) (as_list (attr "elts" it)) || existsb (is_dict nr) (as_list (attr "values" it)).

  (** source_visitor.py:2111-2136 [__handle_for]; the restored name_res is the same object, so
      nothing is restored. *)
  Definition handle_for (v : pyval) (fs : list (string * pyval)) (ks : list (string * ksem)) : act :=
    unless_no_line (lineno v)
      (upd (fun s => u_seen_for (s_seen_for s + 1) s) >>
       scoped
         (add_target_defs (fld "target" fs) >>
          match name_id (fld "target" fs) with
          | Some n => rd (fun s => when (iter_has_dict (s_name_res s) (fld "iter" fs)) (add_name_res n "dict"))
          | None => nop
          end >>
          generic_visit v ks >>
          upd (fun s => u_seen_for (s_seen_for s - 1) s))).

  (** source_visitor.py:2141-2146 [visit_AsyncFor]. *)
  Definition visit_asyncfor (v : pyval) (fs : list (string * pyval)) (ks : list (string * ksem)) : act :=
    unless_no_line (lineno v)
      (set_flag FAsyncFor >> vvl "async for-loops" (lineno v) (None, Some (3, 5)) >> handle_for v fs ks).

  (** source_visitor.py:2148-2152 [visit_While]. *)
  Definition visit_while (v : pyval) (ks : list (string * ksem)) : act :=
    unless_no_line (lineno v)
      (upd (fun s => u_seen_while (s_seen_while s + 1) s) >>
       generic_visit v ks >>
       upd (fun s => u_seen_while (s_seen_while s - 1) s)).

  (** source_visitor.py:2154-2165 [__handle_Try], [visit_Try]. *)
  Definition visit_try (v : pyval) (ks : list (string * ksem)) : act :=
    unless_no_line (lineno v)
      (upd (fun s => u_try_finally (s_try_finally s ++ [(s_seen_for s, s_seen_while s)]) s) >>
       each k_visit (k_list (kid "finalbody" ks)) >>
       upd (fun s => u_try_finally (removelast (s_try_finally s)) s) >>
       generic_visit v ks).

  (** source_visitor.py:973-979 [visit_Starred]. *)
  Definition visit_starred (v : pyval) (fs : list (string * pyval)) (ks : list (string * ksem)) : act :=
    when (is_kind KStore (fld "ctx" fs))
      (set_flag FUnpackingAssign >> vv "unpacking assignment" (None, Some (3, 0))) >>
    generic_visit v ks.

  (** Dispatch of [visit] by class name (ast.NodeVisitor.visit, standard library); classes without a
      method use generic_visit; source_visitor.py:2191-2254 are the classes ignored. *)
  Definition handler (k : kind) (uid : N) (pos : option (Z * Z)) (fs : list (string * pyval))
             (ks : list (string * ksem)) : act :=
    let v := VNode k uid pos fs in
    match k with
    | KImport => visit_import pos fs
    | KImportFrom => visit_import_from pos fs
    | KName => visit_name fs
    | KStarred => visit_starred v fs ks
    | KCall => visit_call v pos fs ks
    | KAttribute => visit_attribute v ks
    | Kkeyword => visit_keyword v fs ks
    | KBinOp => visit_binop v fs ks
    | KConstant => visit_constant uid pos fs
    | KJoinedStr => visit_joinedstr v ks
    | KAssign => visit_assign v fs ks
    | KAugAssign => visit_augassign v fs ks
    | KAnnAssign => visit_annassign v fs ks
    | KFunctionDef => visit_functiondef v fs ks
    | KAsyncFunctionDef => visit_asyncfunctiondef v fs ks
    | KLambda => scoped (generic_visit v ks)
    | KAwait => visit_await v ks
    | KClassDef => visit_classdef v fs ks
    | KNamedExpr => visit_namedexpr v fs ks
    | Karguments => visit_arguments v fs ks
    | KNonlocal => visit_nonlocal v ks
    | KYieldFrom => visit_yieldfrom v ks
    | KYield => visit_yield v ks
    | KRaise => visit_raise v fs ks
    | KExceptHandler => visit_excepthandler v fs ks
    | KListComp | KGeneratorExp => comp_scope v fs ks
    | KSetComp => visit_setcomp v fs ks
    | KDictComp => visit_dictcomp v fs ks
    | Kcomprehension => visit_comprehension v fs ks
    | KMatMult => visit_matmult v ks
    | KContinue => visit_continue v
    | KWith => visit_with v fs ks
    | KAsyncWith => visit_asyncwith v fs ks
    | KDict => visit_dict v fs ks
    | KTuple | KList => visit_seq v fs ks
    | KSet => visit_set v fs ks
    | KSubscript => visit_subscript v fs ks
    | KMatch => visit_match v ks
    | KIf | KIfExp | KBoolOp => visit_cond v ks
    | KFor => handle_for v fs ks
    | KAsyncFor => visit_asyncfor v fs ks
    | KWhile => visit_while v ks
    | KTry => visit_try v ks
    | KTypeAlias => visit_typealias v ks
    | Kalias | KLoad | KStore | KPass | KNot | KAdd | KSub | KMult | KDiv | KBitAnd | KOr | KBitOr
    | KEq | KNotEq | KLt | KGt | KIn | KIs | KBreak | KMod => nop
    | _ => generic_visit v ks
    end.

  (** The visits of a value: [self.visit] and [self.generic_visit]. *)
  Fixpoint sem (v : pyval) : ksem :=
    match v with
    | VNode k u p fs =>
        let ks := map (fun fx => (fst fx, sem (snd fx))) fs in
        KNode (handler k u p fs ks) (generic_visit v ks)
    | VList l => KList_ (map sem l)
    | _ => KOther
    end.

  (** [self.visit(node)]. *)
  Definition visit (v : pyval) : act := k_visit (sem v).

  (** Entries of a list equal to a name are removed, with one message each (source_visitor.py:886-889,
      891-894). *)
  Definition drop_user_def (what : string) (get : st -> list string) (put : list string -> st -> st)
             (ud : string) : act :=
    rd (fun s =>
      each (fun _ => vvvv ("Ignoring " +++ what +++ " '" +++ ud +++ "' because it's user-defined!"))
           (filter (String.eqb ud) (get s)) >>
      upd (fun s => put (filter (fun m => negb (String.eqb ud m)) (get s)) s)).

  (** source_visitor.py:882-894 [__after_visit_all]. *)
  Definition after_visit_all : act :=
    rd (fun s =>
      each (fun ud => drop_user_def "module" s_modules u_modules ud >>
                      drop_user_def "member" s_members u_members ud) (s_user_defs s)).

  (** source_visitor.py:897-899 [tour], from a fresh state. *)
  Definition tour (v : pyval) : res st := (visit v >> after_visit_all) init_st.
End Visitor.
