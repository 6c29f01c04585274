(** Self-documenting f-strings (C79): [f"{expression=}"]. CPython parses one as an f-string that has the text of the
    expression with [=], as it is written, before the value of the expression. *)
From Verif Require Import PyBase Utility RulesData Rules Config Formats Paths AstKinds Ast State Visitor Spec_Base Spec_Visitor Spec_Seen.

(** Blanks as they can stand between the parts of an expression. *)
Definition gap_char (c : ascii) : bool := existsb (Ascii.eqb c) (map ascii_of_nat [32; 9; 10; 13; 12; 11]%nat).
Definition gap (s : string) : Prop := forall a c b, s = a +++ String c b -> gap_char c = true.

(** Words: names, attributes. *)
Definition word (s : string) : Prop :=
  s <> "" /\ forall a c b, s = a +++ String c b -> gap_char c = false /\ c <> "("%char /\ c <> ")"%char.

(** The signs of operators. *)
Inductive sign : kind -> string -> Prop :=
| sg_add : sign KAdd "+" | sg_sub : sign KSub "-" | sg_mult : sign KMult "*" | sg_matmult : sign KMatMult "@"
| sg_div : sign KDiv "/" | sg_floor : sign KFloorDiv "//" | sg_mod : sign KMod "%" | sg_pow : sign KPow "**"
| sg_lshift : sign KLShift "<<" | sg_rshift : sign KRShift ">>" | sg_or : sign KBitOr "|" | sg_xor : sign KBitXor "^"
| sg_and : sign KBitAnd "&".
Inductive prefix_sign : kind -> string -> Prop :=
| ps_not : prefix_sign KNot "not" | ps_sub : prefix_sign KUSub "-" | ps_add : prefix_sign KUAdd "+" | ps_invert : prefix_sign KInvert "~".
Inductive logic_sign : kind -> string -> Prop := ls_and : logic_sign KAnd "and" | ls_or : logic_sign KOr "or".
Inductive compare_sign : kind -> string -> Prop :=
| cs_eq : compare_sign KEq "==" | cs_ne : compare_sign KNotEq "!=" | cs_lt : compare_sign KLt "<" | cs_le : compare_sign KLtE "<="
| cs_gt : compare_sign KGt ">" | cs_ge : compare_sign KGtE ">=" | cs_is : compare_sign KIs "is" | cs_in : compare_sign KIn "in"
| cs_is_not w : gap w -> compare_sign KIsNot ("is" +++ w +++ "not")
| cs_not_in w : gap w -> compare_sign KNotIn ("not" +++ w +++ "in").

(** A constant as it is usually written. *)
Inductive literal : pyval -> string -> Prop :=
| li_none : literal VNone "None"
| li_true : literal (VBool true) "True"
| li_false : literal (VBool false) "False"
| li_int z : 0 <= z -> literal (VInt z) (z_str z)
| li_float t : word t -> literal (VFloat t) t
| li_str t : literal (VStr t) (String dq (t +++ chr dq)).

Definition op (k : kind) (x : pyval) : Prop := exists u p, x = VNode k u p [].

Inductive named_node : pyval -> string -> Prop :=
| nn_name u p x c : word x -> ctx_node c -> named_node (VNode KName u p [("id", VStr x); ("ctx", c)]) x.

(** A dotted name with blanks around its dots. *)
Inductive spaced : string -> string -> Prop :=
| sp_word x : word x -> spaced x x
| sp_dot d s w w' x : spaced d s -> gap w -> gap w' -> word x -> spaced (d +++ "." +++ x) (s +++ w +++ "." +++ w' +++ x).

(** [written own v s]: the expression [v] can be written as [s], with blanks between its parts and parentheses around
    them. Dotted names begin with a name of [own]. *)
Inductive written (own : string -> Prop) : pyval -> string -> Prop :=
| wr_name v x : named_node v x -> written own v x
| wr_literal u p x t k : literal x t -> (forall a b d f, k <> VNode a b d f) -> (forall l, k <> VList l) ->
    written own (VNode KConstant u p [("value", x); ("kind", k)]) t
| wr_dotted b v d s : dotted_name b b v d -> own b -> spaced d s -> written own v s
| wr_gap_before v s w : gap w -> written own v s -> written own v (w +++ s)
| wr_gap_after v s w : gap w -> written own v s -> written own v (s +++ w)
| wr_paren v s : written own v s -> written own v ("(" +++ s +++ ")")
| wr_binary u p a b o k s t g : op k o -> sign k g -> written own a s -> written own b t ->
    written own (VNode KBinOp u p [("left", a); ("op", o); ("right", b)]) (s +++ g +++ t)
| wr_unary u p a o k s g : op k o -> prefix_sign k g -> written own a s ->
    written own (VNode KUnaryOp u p [("op", o); ("operand", a)]) (g +++ s)
| wr_logic u p o k g l ts : op k o -> logic_sign k g -> l <> [] -> all_written own l ts ->
    written own (VNode KBoolOp u p [("op", o); ("values", VList l)]) (join g ts)
| wr_compare u p a os bs s t : written own a s -> compared own os bs t ->
    written own (VNode KCompare u p [("left", a); ("ops", VList os); ("comparators", VList bs)]) (s +++ t)
| wr_if u p c a b s t r : written own c s -> written own a t -> written own b r ->
    written own (VNode KIfExp u p [("test", c); ("body", a); ("orelse", b)]) (t +++ "if" +++ s +++ "else" +++ r)
| wr_tuple u p l ts c : l <> [] -> all_written own l ts -> ctx_node c ->
    written own (VNode KTuple u p [("elts", VList l); ("ctx", c)]) (join "," ts)
| wr_list u p l ts c : all_written own l ts -> ctx_node c ->
    written own (VNode KList u p [("elts", VList l); ("ctx", c)]) ("[" +++ join "," ts +++ "]")
| wr_set u p l ts : all_written own l ts ->
    written own (VNode KSet u p [("elts", VList l)]) ("{" +++ join "," ts +++ "}")
| wr_dict u p ks vs ts : pairs own ks vs ts ->
    written own (VNode KDict u p [("keys", VList ks); ("values", VList vs)]) ("{" +++ join "," ts +++ "}")
| wr_list_comp u p a g s t : written own a s -> loop own g t ->
    written own (VNode KListComp u p [("elt", a); ("generators", VList [g])]) ("[" +++ s +++ "for" +++ t +++ "]")
| wr_set_comp u p a g s t : written own a s -> loop own g t ->
    written own (VNode KSetComp u p [("elt", a); ("generators", VList [g])]) ("{" +++ s +++ "for" +++ t +++ "}")
| wr_dict_comp u p a b g s r t : written own a s -> written own b r -> loop own g t ->
    written own (VNode KDictComp u p [("key", a); ("value", b); ("generators", VList [g])]) ("{" +++ s +++ ":" +++ r +++ "for" +++ t +++ "}")
| wr_generator u p a g s t : written own a s -> loop own g t ->
    written own (VNode KGeneratorExp u p [("elt", a); ("generators", VList [g])]) ("(" +++ s +++ "for" +++ t +++ ")")
| wr_item u p a b s t c : written own a s -> written own b t -> ctx_node c ->
    written own (VNode KSubscript u p [("value", a); ("slice", b); ("ctx", c)]) (s +++ "[" +++ t +++ "]")
| wr_call u p f s : written own f s ->
    written own (VNode KCall u p [("func", f); ("args", VList []); ("keywords", VList [])]) (s +++ "()")
| wr_call_name u p f w a t : named_node f w -> written own a t -> ~ isa KAttribute a -> ~ isa KCall a ->
    written own (VNode KCall u p [("func", f); ("args", VList [a]); ("keywords", VList [])]) (w +++ "(" +++ t +++ ")")
with all_written (own : string -> Prop) : list pyval -> list string -> Prop :=
| aw_nil : all_written own [] []
| aw_cons v s l ts : written own v s -> all_written own l ts -> all_written own (v :: l) (s :: ts)
with compared (own : string -> Prop) : list pyval -> list pyval -> string -> Prop :=
| cm_one o k g b t : op k o -> compare_sign k g -> written own b t -> compared own [o] [b] (g +++ t)
| cm_more o k g b t os bs r : op k o -> compare_sign k g -> written own b t -> compared own os bs r ->
    compared own (o :: os) (b :: bs) (g +++ t +++ r)
with pairs (own : string -> Prop) : list pyval -> list pyval -> list string -> Prop :=
| pr_nil : pairs own [] [] []
| pr_cons k s v t ks vs ts : written own k s -> written own v t -> pairs own ks vs ts -> pairs own (k :: ks) (v :: vs) ((s +++ ":" +++ t) :: ts)
with loop (own : string -> Prop) : pyval -> string -> Prop :=
| lo_in u p a b i s t : written own a s -> written own b t ->
    loop own (VNode Kcomprehension u p [("target", a); ("iter", b); ("ifs", VList []); ("is_async", i)]) (s +++ "in" +++ t).

(** The values of an f-string with a self-documenting part: text before it, the expression as written, [=] and blanks,
    and then the value. *)
Inductive self_documenting (own : string -> Prop) : list pyval -> Prop :=
| self_doc l1 l2 u p k before s w u' p' v fs : written own v s -> gap w ->
    self_documenting own (l1 ++ VNode KConstant u p [("value", VStr (before +++ s +++ "=" +++ w)); ("kind", k)] ::
                          VNode KFormattedValue u' p' (("value", v) :: fs) :: l2).

Scheme written_mind := Induction for written Sort Prop
  with all_written_mind := Induction for all_written Sort Prop
  with compared_mind := Induction for compared Sort Prop
  with pairs_mind := Induction for pairs Sort Prop
  with loop_mind := Induction for loop Sort Prop.
Combined Scheme written_all_mind from written_mind, all_written_mind, compared_mind, pairs_mind, loop_mind.

(** A text without blanks and parentheses. *)
Fixpoint squeeze (s : string) : string :=
  match s with
  | EmptyString => EmptyString
  | String c r => if gap_char c || Ascii.eqb c "(" || Ascii.eqb c ")" then squeeze r else String c (squeeze r)
  end.

(** The values of an f-string with a text that ends, but for blanks and parentheses, with a way to write the value that
    follows, and [=]. *)
Inductive seems_documenting (own : string -> Prop) : list pyval -> Prop :=
| seems_doc l1 l2 x t y s before : constant (VStr t) x -> isa KFormattedValue y -> written own (attr "value" y) s ->
    squeeze t = before +++ squeeze s +++ "=" -> seems_documenting own (l1 ++ x :: y :: l2).

(** Other ways to write an expression: in single quotes, a call with two arguments, a slice, a dotted name that begins
    with any name. *)
Inductive way : Set := SingleQuotes | TwoArguments | ASlice | AnyName.
Inductive also_written : way -> pyval -> string -> Prop :=
| al_quotes u p t k : word t -> also_written SingleQuotes (VNode KConstant u p [("value", VStr t); ("kind", k)]) ("'" +++ t +++ "'")
| al_call u p f w a s b t : named_node f w -> named_node a s -> named_node b t ->
    also_written TwoArguments (VNode KCall u p [("func", f); ("args", VList [a; b]); ("keywords", VList [])]) (w +++ "(" +++ s +++ ", " +++ t +++ ")")
| al_slice u p a w u' p' b s d t c : named_node a w -> written (fun _ => True) b s -> written (fun _ => True) d t -> ctx_node c ->
    also_written ASlice (VNode KSubscript u p [("value", a); ("slice", VNode KSlice u' p' [("lower", b); ("upper", d); ("step", VNone)]); ("ctx", c)])
      (w +++ "[" +++ s +++ ":" +++ t +++ "]")
| al_name b v d s : dotted_name b b v d -> spaced d s -> also_written AnyName v s.

(** A value that does not stand in a self-documenting part: CPython asks for [!r] there unless a format or another
    conversion is given. *)
Definition undocumented (y : pyval) : Prop := attr "conversion" y = VInt (-1) /\ attr "format_spec" y = VNone.
