(** Sources that only differ in layout (C77): where the code stands, on which lines and in which columns. *)
From Verif Require Import PyBase Utility RulesData Rules Config Paths AstKinds Ast State Parser Processor Spec_Base Spec_Parser Spec_Visitor
  Spec_Seen.
From Verif Require Spec_Detection.

(** The same tree at other positions; [f] gives the new position of every node. *)
Fixpoint relay (f : N -> option (Z * Z) -> option (Z * Z)) (v : pyval) : pyval :=
  match v with
  | VNode k u p fs => VNode k u (f u p) (map (fun fx => (fst fx, relay f (snd fx))) fs)
  | VList l => VList (map (relay f) l)
  | _ => v
  end.

(** The value of a constant is no node and has none in it, and decorators are nodes, as in every tree of the parser. *)
Definition plain_constant (n : pyval) : Prop :=
  isa KConstant n -> forall f x, In (f, x) (fields n) -> is_node x = false /\ as_list x = [].
Definition proper (n : pyval) : Prop :=
  plain_constant n /\ forall d, In d (items "decorator_list" n) -> is_node d = true.

(** A node and the same node elsewhere: excluded by a comment both or neither; and the text says the same of
    what the tree does not say: whether a handler is [except*], whether a [with] has parentheses. *)
Record same_role (e e' : env) (n n' : pyval) : Prop := {
  sr_counted : counted e n <-> counted e' n';
  sr_handler : isa KExceptHandler n ->
    (except_star e (lineno n) (col_offset n) <-> except_star e' (lineno n') (col_offset n'));
  sr_with : with_stmt n ->
    (with_paren_near e (lineno n) /\ with_paren_near e' (lineno n')) \/
    (~ with_paren e (lineno n) /\ ~ with_paren e' (lineno n'))
}.

Definition relaid (e e' : env) (f : N -> option (Z * Z) -> option (Z * Z)) (v : pyval) : Prop :=
  forall n, below n v -> same_role e e' n (relay f n) /\ proper n.

(** Everything [k] lines further down. *)
Definition down (k : Z) (_ : N) (p : option (Z * Z)) : option (Z * Z) :=
  match p with Some (l, c) => Some (l + k, c) | None => None end.
Definition token_down (k : Z) (t : token) : token :=
  mkTok (tk_type t) (tk_string t) (tk_row t + k) (tk_col t) (tk_end t + k).

(** ** Lines on top of a source *)
Definition text_below (above : list string) (src : string) : string := sconcat (map (fun l => l +++ nl) above) +++ src.
Definition one_line (l : string) : Prop := forall a c b, l = a +++ String c b -> is_linebreak c = false.
(** What is in these [k] lines: comments, none of which excludes anything. *)
Definition top_tokens (k : Z) (top : list token) : Prop :=
  forall t, In t top -> tk_row t <= k /\ tk_end t <= k /\ (tk_type t = TkComment -> Spec_Detection.begins "#" (tk_string t) /\ ~ marks (tk_string t)).
(** The source itself starts on line 1; an indented comment does not come first. *)
Definition token_rows (toks : list token) : Prop :=
  (forall t, In t toks -> 0 < tk_row t) /\ match toks with t :: _ => tk_type t = TkComment -> tk_col t = 0 | [] => True end.
Definition placed (n : pyval) : Prop :=
  match pos_of n with Some (l, _) => 0 < l | None => ~ isa KExceptHandler n /\ ~ with_stmt n end.

(** What is known of two files, but for the text; the excluded lines are [k] lines further down. *)
Definition moved_result (k : Z) (r r' : res presult) : Prop :=
  match r, r' with
  | Ok a, Ok b => r_path a = r_path b /\ r_mins a = r_mins b /\ r_bps a = r_bps b /\ r_maybe a = r_maybe b /\
                  r_novermin b = map (fun l => l + k) (r_novermin a)
  | Err x, Err x' => x = x'
  | _, _ => False
  end.
Definition moved_work (k : Z) (r r' : res (option presult)) : Prop :=
  match r, r' with
  | Ok None, Ok None => True
  | Ok (Some a), Ok (Some b) => moved_result k (Ok a) (Ok b)
  | Err x, Err x' => x = x'
  | _, _ => False
  end.
(** The same, with any lines excluded. *)
Definition laid_result (r r' : res presult) : Prop :=
  match r, r' with
  | Ok a, Ok b => r_path a = r_path b /\ r_mins a = r_mins b /\ r_bps a = r_bps b /\ r_maybe a = r_maybe b
  | Err x, Err x' => x = x'
  | _, _ => False
  end.
(** No [with] has its parenthesis more than ten lines away. *)
Definition near_parens (src : string) (n : pyval) : Prop :=
  with_stmt n -> forall e, e_source e = Some src -> with_paren e (lineno n) -> with_paren_near e (lineno n).

(** A file, and the same file with lines of comments and empty lines on top. *)
Inductive moved_file : fcontent -> fcontent -> Prop :=
| mf_same x : moved_file x x
| mf_moved above src v toks top :
    (forall l, In l above -> one_line l) -> top_tokens (Z.of_nat (List.length above)) top -> token_rows toks ->
    (forall n, below n v -> placed n /\ proper n /\ near_parens src n) ->
    moved_file (FcSource src (PTree v (inr toks)))
      (FcSource (text_below above src)
         (PTree (relay (down (Z.of_nat (List.length above))) v)
                (inr (top ++ map (token_down (Z.of_nat (List.length above))) toks)))).
