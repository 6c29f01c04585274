(** Proofs about self-documenting f-strings (C79). *)
From Verif Require Import PyBase PyLemmas Utility RulesData Rules Config Formats Paths AstKinds Ast State Visitor
  Spec_Base Spec_Visitor Spec_Seen Spec_Fstring Proof_Tour Proof_Handlers Proof_Forms Proof_Seen Proof_Reached Fstring.

(** *** Texts *)
Notation trim := trim_fstring_value.
Lemma trim_squeeze s : trim s = squeeze s.
Proof.
  unfold trim_fstring_value, remove_whitespace. induction s as [|c r IH]; [reflexivity|]. cbn [sfilter squeeze]. rewrite IH.
  unfold ws_class, gap_char. rewrite existsb_app. cbn [existsb map].
  destruct (Ascii.eqb c (ascii_of_nat 32)), (Ascii.eqb c (ascii_of_nat 9)), (Ascii.eqb c (ascii_of_nat 10)), (Ascii.eqb c (ascii_of_nat 13)),
    (Ascii.eqb c (ascii_of_nat 12)), (Ascii.eqb c (ascii_of_nat 11)), (Ascii.eqb c "("), (Ascii.eqb c ")"); reflexivity.
Qed.
Lemma squeeze_app a b : squeeze (a +++ b) = squeeze a +++ squeeze b.
Proof. induction a as [|c a IH]; [reflexivity|]. change (String c a +++ b) with (String c (a +++ b)). cbn [squeeze]. rewrite IH. destruct (_ || _); reflexivity. Qed.
Lemma squeeze_gap w : gap w -> squeeze w = "".
Proof.
  intros G. induction w as [|c w IH]; [reflexivity|]. cbn [squeeze]. rewrite (G "" c w eq_refl). cbn [orb]. apply IH.
  intros a d b E. apply (G (String c a) d b). rewrite E. reflexivity.
Qed.
Lemma squeeze_word w : word w -> squeeze w = w.
Proof.
  intros (_ & G). induction w as [|c w IH]; [reflexivity|]. cbn [squeeze]. destruct (G "" c w eq_refl) as (A & B & C). rewrite A.
  apply Ascii.eqb_neq in B, C. rewrite B, C. cbn [orb]. f_equal. apply IH.
  intros a d b E. apply (G (String c a) d b). rewrite E. reflexivity.
Qed.
Lemma squeeze_repeat n : squeeze (srepeat ")" n) = "".
Proof. induction n as [|n IH]; [reflexivity|]. cbn. exact IH. Qed.
Lemma squeeze_join sep l l' : map squeeze l = map squeeze l' -> forall sep', squeeze sep = squeeze sep' -> squeeze (join sep l) = squeeze (join sep' l').
Proof.
  intros E sep' S. revert l' E. induction l as [|x l IH]; intros [|y l'] E; try discriminate; [reflexivity|].
  cbn [map] in E. injection E as E1 E2. destruct l as [|x2 l], l' as [|y2 l']; try discriminate; [exact E1|].
  change (join sep (x :: x2 :: l)) with (x +++ sep +++ join sep (x2 :: l)).
  change (join sep' (y :: y2 :: l')) with (y +++ sep' +++ join sep' (y2 :: l')).
  rewrite !squeeze_app, E1, S. f_equal. f_equal. apply IH, E2.
Qed.

(** *** What a node gives *)
Definition quiet (a : xact) : Prop := a = quiet_act.
Definition gives_one (x : xtree) (t : string) : Prop :=
  exists a ks, x = XNode a ks /\ x_pieces a = Ok [Some t] /\ x_call a = false /\
    (x_break a = true \/ Forall (Forall quiet) (merge_all (map (fun fx => xlevels (snd fx)) ks))).

Lemma xrun_quiet l v c : Forall quiet l -> xrun l v c = Ok (v, c).
Proof.
  induction 1 as [|a l Q _ IH]; [reflexivity|]. unfold quiet in Q. subst a. cbn. rewrite app_nil_r, orb_false_r. exact IH.
Qed.
Lemma concat_quiet l : Forall (Forall quiet) l -> Forall quiet (List.concat l).
Proof. induction 1; cbn; [constructor|]. apply Forall_app. split; assumption. Qed.
Lemma merge_quiet a b : Forall (Forall quiet) a -> Forall (Forall quiet) b -> Forall (Forall quiet) (merge a b).
Proof.
  revert b. induction a as [|x a IH]; intros b A B; [exact B|]. destruct b as [|y b]; [exact A|]. cbn.
  inversion A; inversion B; subst. constructor; [apply Forall_app; split; assumption|apply IH; assumption].
Qed.
Lemma one_text x t : gives_one x t -> xtext x = Ok t.
Proof.
  intros (a & ks & -> & P & C & [B|Q]).
  - unfold xtext. cbn [xlevels List.concat app xrun]. rewrite P. cbn [bindr]. rewrite B, C. reflexivity.
  - unfold xtext. cbn [xlevels List.concat app xrun]. rewrite P. cbn [bindr]. rewrite C.
    destruct (x_break a); [reflexivity|]. rewrite xrun_quiet by (apply concat_quiet, Q). reflexivity.
Qed.

Section Written.
  Variables (man : list (string * string)) (own : string -> Prop).
  Hypothesis Own : forall b, own b -> resolve_module_name man b = b.

  Lemma xsem_node k u p fs : xsem man (VNode k u p fs) =
    XNode (xaction man (VNode k u p fs) k fs (map (fun fx => (fst fx, xsem man (snd fx))) fs)) (map (fun fx => (fst fx, xsem man (snd fx))) fs).
  Proof. reflexivity. Qed.
  Lemma ctx_sem c : ctx_node c -> xlevels (xsem man c) = [[quiet_act]].
  Proof. intros (k & u & p & K & ->). destruct K as [<-|[<-|[<-|[]]]]; reflexivity. Qed.
  Lemma op_text_of k o g : op k o -> op_text k = Some g -> gives_one (xsem man o) g.
  Proof.
    intros (u & p & ->) E. exists (piece g), []. split; [|split; [reflexivity|split; [reflexivity|right; constructor]]].
    cbn [xsem map]. f_equal. destruct k; try discriminate; injection E as <-; reflexivity.
  Qed.

  Definition said (v : pyval) (s : string) : Prop :=
    exists t, xtext (xsem man v) = Ok t /\ squeeze t = squeeze s /\ squeeze s <> "" /\
      (~ isa KAttribute v -> ~ isa KCall v -> gives_one (xsem man v) t).
  Definition said_all (l : list pyval) (ts : list string) : Prop :=
    List.length l = List.length ts /\ exists us, texts (map (xsem man) l) = Ok us /\ map squeeze us = map squeeze ts.
  Definition said_compared (os bs : list pyval) (s : string) : Prop :=
    exists us ts, texts (map (xsem man) os) = Ok us /\ texts (map (xsem man) bs) = Ok ts /\
      squeeze (sconcat (map (fun oc => fst oc +++ " " +++ snd oc) (combine us ts))) = squeeze s.
  Definition said_pairs (ks vs : list pyval) (l : list string) : Prop :=
    exists us ts, texts (map (xsem man) ks) = Ok us /\ texts (map (xsem man) vs) = Ok ts /\
      map squeeze (map (fun kv => fst kv +++ ":" +++ snd kv) (combine us ts)) = map squeeze l.
  Definition said_loop (g : pyval) (s : string) : Prop :=
    exists t, xtext (xsem man g) = Ok t /\ squeeze t = squeeze s.

  Lemma app_empty a b : a +++ b = "" -> a = "" /\ b = "".
  Proof. destruct a; [auto|discriminate]. Qed.

  (** A node that ends the walk. *)
  Lemma said_break v s t k u p fs : v = VNode k u p fs ->
    xaction man v k fs (map (fun fx => (fst fx, xsem man (snd fx))) fs) = last_piece (Ok t) ->
    squeeze t = squeeze s -> squeeze s <> "" -> said v s.
  Proof.
    intros -> A S N. exists t.
    assert (G : gives_one (xsem man (VNode k u p fs)) t).
    { eexists _, _. split; [apply xsem_node|]. rewrite A. split; [reflexivity|]. split; [reflexivity|left; reflexivity]. }
    split; [apply one_text, G|]. split; [exact S|]. split; [exact N|intros _ _; exact G].
  Qed.
  Lemma named_one f w : named_node f w -> gives_one (xsem man f) w /\ xlevels (xsem man f) = [[piece w]; [quiet_act]] /\ word w.
  Proof.
    intros [u p x c W C]. assert (L := ctx_sem c C). split; [|split; [|exact W]].
    - eexists _, _. split; [apply xsem_node|]. split; [reflexivity|]. split; [reflexivity|]. right. cbn [map fst snd merge_all].
      rewrite L. repeat constructor.
    - rewrite xsem_node. cbn [xlevels map fst snd merge_all]. rewrite L. reflexivity.
  Qed.
  Lemma literal_text x t : literal x t -> match x with VStr s => String dq (s +++ chr dq) | _ => const_text x end = t /\ squeeze t <> "".
  Proof.
    intros []; try (split; [reflexivity|discriminate]).
    - split; [reflexivity|]. destruct (z_str_head z H) as (c & r & -> & D). cbn [squeeze].
      replace (gap_char c || Ascii.eqb c "(" || Ascii.eqb c ")") with false; [discriminate|].
      destruct c as [[|] [|] [|] [|] [|] [|] [|] [|]]; try discriminate; reflexivity.
    - split; [reflexivity|]. rewrite squeeze_word by assumption. apply H.
  Qed.

  Lemma sign_text k g : sign k g -> op_text k = Some g.
  Proof. intros []; reflexivity. Qed.
  Lemma prefix_text k g : prefix_sign k g -> exists h, op_text k = Some h /\ squeeze h = squeeze g /\ squeeze g <> "".
  Proof. intros []; eexists; (split; [reflexivity|split; [reflexivity|discriminate]]). Qed.
  Lemma logic_text k g : logic_sign k g -> exists h, op_text k = Some h /\ squeeze h = squeeze g.
  Proof. intros []; eexists; (split; reflexivity). Qed.
  Lemma compare_text k g : compare_sign k g -> exists h, op_text k = Some h /\ squeeze h = squeeze g.
  Proof.
    intros [| | | | | | | |w G|w G]; eexists; (split; [reflexivity|]); try reflexivity; rewrite !squeeze_app, (squeeze_gap w G); reflexivity.
  Qed.
  Lemma join_one (x : string) sep : join sep [x] = x.
  Proof. reflexivity. Qed.

  Ltac sq := rewrite ?squeeze_app.

  Lemma squeeze_join_full g ts : ts <> [] -> (forall t, In t ts -> squeeze t <> "") -> squeeze (join g ts) <> "".
  Proof.
    destruct ts as [|t [|t2 ts]]; intros N A; [contradiction|apply A; left; reflexivity|].
    change (join g (t :: t2 :: ts)) with (t +++ g +++ join g (t2 :: ts)). intros Q. rewrite squeeze_app in Q.
    apply app_empty in Q as (Q & _). apply (A t (or_introl eq_refl)), Q.
  Qed.

  Lemma spaced_text d s : spaced d s -> squeeze d = d /\ squeeze s = d /\ d <> "".
  Proof.
    induction 1 as [x W|d s w w' x _ (A & B & C) G G' W].
    - rewrite (squeeze_word x W). repeat split; apply W.
    - rewrite !squeeze_app, (squeeze_gap w G), (squeeze_gap w' G'), (squeeze_word x W), A, B. repeat split.
      intros Q. apply app_empty in Q as (Q & _). contradiction.
  Qed.
  Ltac brk t := eapply said_break; [reflexivity|cbn [xaction map fst snd]; cbv [xkid xitems assoc String.eqb Ascii.eqb Bool.eqb]; cbn [xsem]; t| |].
  Ltac some := let Q := fresh in intros Q; rewrite ?squeeze_app in Q;
    repeat match type of Q with _ +++ _ = "" => let A := fresh in apply app_empty in Q as (A & Q); try contradiction; try discriminate A end;
    try contradiction; try discriminate Q.

  Lemma written_said :
    (forall v s, written own v s -> said v s) /\
    (forall l ts, all_written own l ts -> said_all l ts /\ forall t, In t ts -> squeeze t <> "") /\
    (forall os bs s, compared own os bs s -> said_compared os bs s) /\
    (forall ks vs l, pairs own ks vs l -> said_pairs ks vs l) /\
    (forall g s, loop own g s -> said_loop g s).
  Proof.
    apply (written_all_mind own (fun v s _ => said v s) (fun l ts _ => said_all l ts /\ forall t, In t ts -> squeeze t <> "")
      (fun os bs s _ => said_compared os bs s) (fun ks vs l _ => said_pairs ks vs l) (fun g s _ => said_loop g s)).
    - intros v x N. destruct (named_one v x N) as (G & _ & W). exists x. split; [apply one_text, G|]. split; [reflexivity|].
      rewrite (squeeze_word x W). split; [apply W|intros _ _; exact G].
    - intros u p x t k L K K'. destruct (literal_text x t L) as (E & N). exists t.
      assert (G : gives_one (xsem man (VNode KConstant u p [("value", x); ("kind", k)])) t).
      { eexists _, _. split; [apply xsem_node|]. cbn [xaction]. change (fld "value" [("value", x); ("kind", k)]) with x.
        split; [cbn [x_pieces piece]; rewrite <- E; destruct x; reflexivity|]. split; [reflexivity|]. right. cbn [map fst snd merge_all].
        assert (X : xlevels (xsem man x) = []) by (destruct L; reflexivity). rewrite X.
        assert (Y : xlevels (xsem man k) = []) by (destruct k; try reflexivity; [exfalso; eapply K'; reflexivity|exfalso; eapply K; reflexivity]).
        rewrite Y. constructor. }
      split; [apply one_text, G|]. split; [reflexivity|]. split; [exact N|intros _ _; exact G].
    - intros b v d s D O Sp. destruct (spaced_text d s Sp) as (Sd & Ss & N). destruct (dotted_name_attr man b b v d D (Own b O)) as (l & E & F).
      pose proof (dotted_kind _ _ _ _ D) as K.
      apply isa_node in K as (u & p & fs & ->). exists d. split; [|split; [congruence|split; [congruence|]]].
      + rewrite xsem_node. unfold xtext. cbn [xlevels List.concat app xrun]. cbn [xaction x_pieces x_break x_call]. rewrite E. cbn [bindr orb].
        cbn [app]. unfold join_pieces. replace (existsb _ _) with false; [|symmetry; generalize (b :: l); intros m; induction m; [reflexivity|assumption]].
        f_equal. rewrite <- F. reflexivity.
      + intros Z. exfalso. apply Z. reflexivity.
    - intros v s w G _ (t & E & S & N & H). exists t. sq. rewrite (squeeze_gap w G). repeat split; assumption.
    - intros v s w G _ (t & E & S & N & H). exists t. sq. rewrite (squeeze_gap w G), app_nil_s. repeat split; assumption.
    - intros v s _ (t & E & S & N & H). exists t. replace (squeeze ("(" +++ s +++ ")")) with (squeeze s);
        [repeat split; assumption|]. change ("(" +++ s +++ ")") with (String "(" (s +++ ")")). cbn [squeeze].
      change (gap_char "(" || Ascii.eqb "(" "(" || Ascii.eqb "(" ")") with true. cbn match. sq. change (squeeze ")") with "". now rewrite app_nil_s.
    - intros u p a b o k s t g O G _ (t1 & E1 & S1 & N1 & _) _ (t2 & E2 & S2 & N2 & _).
      pose proof (one_text _ _ (op_text_of k o g O (sign_text k g G))) as E3.
      eapply said_break; [reflexivity|cbn [xaction map fst snd]; cbv [xkid assoc String.eqb Ascii.eqb Bool.eqb]; rewrite E1, E2, E3; reflexivity|sq; congruence|].
      sq. intros Q. apply app_empty in Q as (Q & _). contradiction.
    - intros u p a o k s g O G _ (t1 & E1 & S1 & N1 & _). destruct (prefix_text k g G) as (h & T & Sh & Nh).
      pose proof (one_text _ _ (op_text_of k o h O T)) as E3.
      eapply said_break; [reflexivity|cbn [xaction map fst snd]; cbv [xkid assoc String.eqb Ascii.eqb Bool.eqb]; rewrite E1, E3; reflexivity|sq; congruence|].
      sq. intros Q. apply app_empty in Q as (Q & _). contradiction.
    - intros u p o k g l ts O G N _ ((L & us & E & S) & A). destruct (logic_text k g G) as (h & T & Sh).
      pose proof (one_text _ _ (op_text_of k o h O T)) as E3.
      eapply said_break; [reflexivity|cbn [xaction map fst snd]; cbv [xkid xitems assoc String.eqb Ascii.eqb Bool.eqb]; cbn [xsem]; rewrite E3; cbn [bindr]; rewrite E; reflexivity| |].
      + apply squeeze_join; assumption.
      + apply squeeze_join_full; [|exact A]. intros ->. destruct l; [contradiction|discriminate].
    - intros u p a os bs s t _ (t1 & E1 & S1 & N1 & _) _ (us & ts & E2 & E3 & S2).
      brk ltac:(rewrite E1; cbn [bindr]; rewrite E2; cbn [bindr]; rewrite E3; reflexivity); [sq; congruence|some].
    - intros u p c a b s t r _ (t1 & E1 & S1 & N1 & _) _ (t2 & E2 & S2 & N2 & _) _ (t3 & E3 & S3 & N3 & _).
      brk ltac:(rewrite E1, E2, E3; reflexivity); [sq; rewrite S1, S2, S3; reflexivity|some].
    - intros u p l ts c N _ ((L & us & E & S) & A) C.
      brk ltac:(rewrite E; reflexivity).
      + rewrite !squeeze_app. change (squeeze "(") with "". change (squeeze ")") with "". rewrite app_nil_s. cbn [String.append].
        apply squeeze_join; [exact S|reflexivity].
      + apply squeeze_join_full; [|exact A]. intros ->. destruct l; [contradiction|discriminate].
    - intros u p l ts c _ ((L & us & E & S) & A) C. brk ltac:(rewrite E; reflexivity); [|some].
      sq. rewrite (squeeze_join _ _ _ S "," eq_refl). reflexivity.
    - intros u p l ts _ ((L & us & E & S) & A). brk ltac:(rewrite E; reflexivity); [|some].
      sq. rewrite (squeeze_join _ _ _ S "," eq_refl). reflexivity.
    - intros u p ks vs ts _ (us & vs' & E & E' & S). brk ltac:(rewrite E; cbn [bindr]; rewrite E'; reflexivity); [|some].
      sq. rewrite (squeeze_join _ _ _ S "," eq_refl). reflexivity.
    - intros u p a g s t _ (t1 & E1 & S1 & N1 & _) _ (t2 & E2 & S2). brk ltac:(cbn [texts map]; rewrite E1, E2; reflexivity); [|some].
      cbn [join]. sq. rewrite S1, S2. reflexivity.
    - intros u p a g s t _ (t1 & E1 & S1 & N1 & _) _ (t2 & E2 & S2). brk ltac:(cbn [texts map]; rewrite E1, E2; reflexivity); [|some].
      cbn [join]. sq. rewrite S1, S2. reflexivity.
    - intros u p a b g s r t _ (t1 & E1 & S1 & N1 & _) _ (t3 & E3 & S3 & _) _ (t2 & E2 & S2).
      brk ltac:(cbn [texts map]; rewrite E1, E2, E3; reflexivity); [|some].
      cbn [join]. sq. rewrite S1, S2, S3. reflexivity.
    - intros u p a g s t _ (t1 & E1 & S1 & N1 & _) _ (t2 & E2 & S2). brk ltac:(cbn [texts map]; rewrite E1, E2; reflexivity); [|some].
      cbn [join]. sq. rewrite S1, S2. reflexivity.
    - intros u p a b s t c _ (t1 & E1 & S1 & N1 & _) _ (t2 & E2 & S2 & _) C. brk ltac:(rewrite E1, E2; reflexivity); [|some].
      sq. rewrite S1, S2. reflexivity.
    - intros u p f s _ (t1 & E1 & S1 & N1 & _). exists (t1 +++ "()").
      split; [|split; [sq; rewrite S1; reflexivity|split; [some|intros _ K; exfalso; apply K; reflexivity]]].
      rewrite xsem_node. unfold xtext. cbn [xlevels List.concat app xrun map fst snd]. cbn [xaction].
      change (flist "args" [("func", f); ("args", VList []); ("keywords", VList [])]) with (@nil pyval).
      change (flist "keywords" [("func", f); ("args", VList []); ("keywords", VList [])]) with (@nil pyval).
      cbn [List.length Nat.eqb andb x_pieces x_break x_call]. cbv [xkid assoc String.eqb Ascii.eqb Bool.eqb]. rewrite E1. cbn [bindr orb app List.length Nat.sub].
      cbn [srepeat mapr]. unfold join_pieces. cbn. rewrite app_nil_s. reflexivity.
    - intros u p f w a t F _ (t1 & E1 & S1 & N1 & G1) KA KC. destruct (named_one f w F) as (_ & L & W). specialize (G1 KA KC).
      exists (w +++ "(" +++ t1 +++ ")").
      split; [|split; [sq; rewrite S1; reflexivity|split; [some|intros _ K; exfalso; apply K; reflexivity]]].
      destruct G1 as (x & ks & Ea & P & Cx & B). rewrite xsem_node. unfold xtext. cbn [map fst snd]. cbn [xlevels map snd merge_all]. rewrite L.
      change (xlevels (xsem man (VList [a]))) with (merge_all [xlevels (xsem man a)]). rewrite Ea. cbn [xlevels merge_all].
      set (M := merge_all _) in *. change (xlevels (xsem man (VList []))) with (@nil (list xact)). rewrite !merge_nil.
      cbn [merge List.concat app xaction].
      change (flist "args" [("func", f); ("args", VList [a]); ("keywords", VList [])]) with [a].
      cbn [List.length Nat.eqb andb xrun x_pieces x_break x_call bindr app orb piece]. rewrite P. cbn [bindr app orb].
      change (match M with [] => [[quiet_act]] | y :: b => (quiet_act :: y) :: b end) with (merge [[quiet_act]] M).
      match goal with |- context [if x_break x then ?A else ?D] => replace (if x_break x then A else D) with A end.
      2: { destruct (x_break x); [reflexivity|]. destruct B as [B|B]; [discriminate|]. rewrite xrun_quiet; [reflexivity|].
           apply concat_quiet, merge_quiet; [repeat constructor|exact B]. }
      cbn [bindr List.length Nat.sub srepeat]. 
      change (Ok ((w +++ "(" +++ t1) +++ ")") = Ok (w +++ "(" +++ t1 +++ ")")). rewrite !app_assoc_s. reflexivity.
    - split; [split; [reflexivity|exists []; split; reflexivity]|intros t []].
    - intros v s l ts _ (t & E & S & N & _) _ ((L & us & E' & S') & A). split.
      + split; [cbn; f_equal; exact L|]. exists (t :: us). cbn [map texts]. rewrite E. cbn [bindr]. rewrite E'. cbn [bindr]. split; [reflexivity|cbn [map]; congruence].
      + intros x [<-|I]; [exact N|exact (A x I)].
    - intros o k g b t O G _ (t1 & E1 & S1 & N1 & _). destruct (compare_text k g G) as (h & T & Sh).
      exists [h], [t1]. cbn [map texts]. rewrite (one_text _ _ (op_text_of k o h O T)), E1. split; [reflexivity|split; [reflexivity|]].
      cbn [combine map sconcat fst snd]. sq. rewrite app_nil_s. rewrite Sh, S1. reflexivity.
    - intros o k g b t os bs r O G _ (t1 & E1 & S1 & N1 & _) _ (us & ts & E2 & E3 & S2). destruct (compare_text k g G) as (h & T & Sh).
      exists (h :: us), (t1 :: ts). cbn [map texts]. rewrite (one_text _ _ (op_text_of k o h O T)), E1. cbn [bindr]. rewrite E2, E3. split; [reflexivity|split; [reflexivity|]].
      cbn [combine map sconcat fst snd]. sq. rewrite S2, Sh, S1. rewrite app_assoc_s. reflexivity.
    - exists [], []. repeat split.
    - intros k s v t ks vs ts _ (t1 & E1 & S1 & _) _ (t2 & E2 & S2 & _) _ (us & ws & E3 & E4 & S3).
      exists (t1 :: us), (t2 :: ws). cbn [map texts]. rewrite E1, E2. cbn [bindr]. rewrite E3, E4. split; [reflexivity|split; [reflexivity|]].
      cbn [combine map fst snd]. f_equal; [sq; rewrite S1, S2; reflexivity|exact S3].
    - intros u p a b i s t _ (t1 & E1 & S1 & _) _ (t2 & E2 & S2 & _). exists (t1 +++ " in " +++ t2). split; [|sq; rewrite S1, S2; reflexivity].
      apply one_text. eexists _, _. split; [apply xsem_node|]. cbn [xaction map fst snd]. cbv [xkid assoc String.eqb Ascii.eqb Bool.eqb]. rewrite E1, E2.
      split; [reflexivity|]. split; [reflexivity|left; reflexivity].
  Qed.
End Written.

(** *** The parts of an f-string *)
Lemma endswith_app a b : endswith b (a +++ b) = true.
Proof.
  induction a as [|c a IH]; [change ("" +++ b) with b; destruct b; cbn [endswith]; rewrite String.eqb_refl; reflexivity|].
  change (String c a +++ b) with (String c (a +++ b)). cbn [endswith]. rewrite IH. apply orb_true_r.
Qed.
Lemma endswith_inv p s : endswith p s = true -> exists a, s = a +++ p.
Proof.
  induction s as [|c s IH]; cbn [endswith]; intros E.
  - rewrite orb_false_r in E. apply String.eqb_eq in E as ->. exists "". reflexivity.
  - apply orb_true_iff in E as [E|E]; [apply String.eqb_eq in E as <-; exists ""; reflexivity|]. destruct (IH E) as (a & ->).
    exists (String c a). reflexivity.
Qed.
Lemma gap_space c : gap_char c = true -> is_space c = true.
Proof. destruct c as [[|] [|] [|] [|] [|] [|] [|] [|]]; intros E; try discriminate; reflexivity. Qed.
Lemma rstrip_gap w : gap w -> rstrip w = "".
Proof.
  intros G. induction w as [|c w IH]; [reflexivity|]. cbn [rstrip]. rewrite IH; [rewrite (gap_space c (G "" c w eq_refl)); reflexivity|].
  intros a d b E. apply (G (String c a) d b). rewrite E. reflexivity.
Qed.
Lemma rstrip_eq a w : gap w -> rstrip (a +++ "=" +++ w) = a +++ "=".
Proof.
  intros G. induction a as [|c a IH].
  - change ("" +++ "=" +++ w) with (String "=" w). cbn [rstrip]. rewrite (rstrip_gap w G). reflexivity.
  - change (String c a +++ "=" +++ w) with (String c (a +++ "=" +++ w)). cbn [rstrip]. rewrite IH. destruct a; reflexivity.
Qed.
Lemma lstrip_eq a w : exists b, lstrip (a +++ "=" +++ w) = b +++ "=" +++ w.
Proof.
  induction a as [|c a (b & IH)]; [exists ""; reflexivity|]. change (String c a +++ "=" +++ w) with (String c (a +++ "=" +++ w)).
  cbn [lstrip]. destruct (is_space c); [exists b; exact IH|exists (String c a); reflexivity].
Qed.
Lemma strip_eq a w : gap w -> endswith "=" (strip (a +++ "=" +++ w)) = true.
Proof. intros G. unfold strip. destruct (lstrip_eq a w) as (b & ->). rewrite (rstrip_eq b w G). apply endswith_app. Qed.

Section Parts.
  Variables (man : list (string * string)) (own : string -> Prop).
  Hypothesis Own : forall b, own b -> resolve_module_name man b = b.

  Lemma written_text v s : written own v s -> exists t, extract_fstring_value man v = Ok t /\ squeeze t = squeeze s /\ squeeze s <> "".
  Proof. intros W. destruct (proj1 (written_said man own Own) v s W) as (t & E & S & N & _). exists t. repeat split; assumption. Qed.

  Lemma loop_cons x y l : selfdoc_loop man (x :: y :: l) =
    match str_val x with
    | Some s =>
        if endswith "=" (strip s) && is_kind KFormattedValue y then
          letr t := extract_fstring_value man (attr "value" y) in
          let t := trim_fstring_value t in
          if negb (String.eqb t "") && endswith (t +++ "=") (trim_fstring_value s) then Ok true else selfdoc_loop man (y :: l)
        else selfdoc_loop man (y :: l)
    | None => selfdoc_loop man (y :: l)
    end.
  Proof. reflexivity. Qed.

  Lemma loop_later l1 l b : selfdoc_loop man (l1 ++ l) = Ok b -> b = true \/ selfdoc_loop man l = Ok b.
  Proof.
    induction l1 as [|x l1 IH]; [right; assumption|]. intros E. change ((x :: l1) ++ l) with (x :: (l1 ++ l)) in E.
    destruct (l1 ++ l) as [|y r] eqn:Q.
    - apply app_eq_nil in Q as (_ & ->). right. exact E.
    - rewrite loop_cons in E. destruct (str_val x) as [s|]; [|exact (IH E)].
      destruct (endswith "=" (strip s) && is_kind KFormattedValue y); [|exact (IH E)].
      destruct (extract_fstring_value _ _) as [t|]; [|discriminate]. cbn [bindr] in E. cbv zeta in E.
      destruct (negb _ && _); [left; congruence|exact (IH E)].
  Qed.
  Lemma loop_seen l b : self_documenting own l -> selfdoc_loop man l = Ok b -> b = true.
  Proof.
    intros [l1 l2 u p k before s w u' p' v fs W G] E. destruct (loop_later _ _ _ E) as [->|E1]; [reflexivity|]. clear E. rewrite loop_cons in E1.
    destruct (written_text v s W) as (t & T & S & N).
    change (str_val (VNode KConstant u p [("value", VStr (before +++ s +++ "=" +++ w)); ("kind", k)])) with (Some (before +++ s +++ "=" +++ w)) in E1.
    change (is_kind KFormattedValue (VNode KFormattedValue u' p' (("value", v) :: fs))) with true in E1.
    change (attr "value" (VNode KFormattedValue u' p' (("value", v) :: fs))) with v in E1. cbn match in E1.
    replace (before +++ s +++ "=" +++ w) with ((before +++ s) +++ "=" +++ w) in E1 by (rewrite !app_assoc_s; reflexivity).
    rewrite (strip_eq _ w G), T in E1. cbn [andb bindr] in E1. cbv zeta in E1. rewrite !trim_squeeze, S in E1.
    apply String.eqb_neq in N. rewrite N in E1. rewrite !squeeze_app, (squeeze_gap w G) in E1.
    replace ((squeeze before +++ squeeze s) +++ squeeze "=" +++ "") with (squeeze before +++ (squeeze s +++ "=")) in E1
      by (rewrite !app_assoc_s; reflexivity).
    rewrite endswith_app in E1. cbn in E1. congruence.
  Qed.
  Lemma loop_sound l : (forall y, In y l -> isa KFormattedValue y -> exists s, written own (attr "value" y) s) ->
    exists b, selfdoc_loop man l = Ok b /\ (b = true -> seems_documenting own l).
  Proof.
    intros A. induction l as [|x l IH]; [exists false; split; [reflexivity|discriminate]|].
    destruct l as [|y l]; [exists false; split; [reflexivity|discriminate]|].
    destruct IH as (b & E & Q); [intros z I; apply A; right; exact I|].
    assert (D : exists b, selfdoc_loop man (y :: l) = Ok b /\ (b = true -> seems_documenting own (x :: y :: l))).
    { exists b. split; [exact E|]. intros B. destruct (Q B) as [l1 l2 x0 t y0 s before C K W S].
      apply (seems_doc own (x :: l1) l2 x0 t y0 s before); assumption. }
    rewrite loop_cons. destruct (str_val x) as [s|] eqn:Sx; [|exact D].
    destruct (endswith "=" (strip s) && is_kind KFormattedValue y) eqn:C; [|exact D]. apply andb_true_iff in C as (_ & K).
    destruct (A y (or_intror (or_introl eq_refl)) K) as (w & W). destruct (written_text _ _ W) as (t & T & S & N).
    rewrite T. cbn [bindr]. cbv zeta. destruct (_ && _) eqn:C; [|exact D]. exists true. split; [reflexivity|]. intros _.
    apply andb_true_iff in C as (_ & C). rewrite !trim_squeeze, S in C. destruct (endswith_inv _ _ C) as (before & Eb).
    apply (seems_doc own [] l x s y w before); try assumption. unfold str_val in Sx.
    destruct x as [| | | | | | | | |k u p fs]; try discriminate. destruct k; try discriminate. cbn [const_val] in Sx.
    split; [reflexivity|]. change (attr "value" (VNode KConstant u p fs)) with (fld "value" fs). destruct (fld "value" fs); try discriminate. congruence.
  Qed.
End Parts.

(** *** The visit of an f-string *)
Lemma self_doc_set e v L n : below n v -> isa KJoinedStr n -> In "fstring-self-doc" (c_features (e_cfg e)) ->
  e_selfdoc e = selfdoc -> self_documenting (unnamed v) (items "values" n) ->
  passes false (own_bounds e v L) (fun _ s => In FFstringsSelfDoc (s_flags s)) (visit e n).
Proof.
  intros Bn K F Sd D. apply node_visit; [exact Bn|]. intros k u p fs ks -> Ft S1 S2 S3 S4. apply kind_eqb_eq in K as <-.
  change (handler e KJoinedStr u p fs ks) with (visit_joinedstr e (VNode KJoinedStr u p fs) ks). unfold visit_joinedstr.
  apply passes_seq_r; [tt_|]. apply passes_seq_r; [tt_|]. apply passes_seq_l; [|apply step_generic; exact S1].
  apply passes_when; [apply mem_In, F|]. apply passes_rd. intros s W. rewrite Sd. apply passes_with_res. intros b E.
  assert (b = true) as ->.
  { apply (loop_seen (s_module_as_name s) (unnamed v)) with (2 := D) (3 := E). intros x U. unfold resolve_module_name.
    rewrite (own_alias_none e v L x s U W). reflexivity. }
  cbn [when]. apply passes_seq_l; [|tt_]. apply passes_here; [|tt_].
  intros a b _ Q. unfold set_flag, upd in Q. injection Q as <-.
  destruct (existsb (flag_eqb FFstringsSelfDoc) (s_flags a)) eqn:X; [|left; reflexivity].
  apply existsb_exists in X as (g & I & Y). destruct g; try discriminate Y. exact I.
Qed.
Lemma reached_self_doc e v L n s : tour e v = Ok s -> reached e v L n -> isa KJoinedStr n -> In "fstring-self-doc" (c_features (e_cfg e)) ->
  e_selfdoc e = selfdoc -> self_documenting (unnamed v) (items "values" n) -> In FFstringsSelfDoc (s_flags s).
Proof.
  intros T R K F Sd D.
  destruct (reached_found _ _ _ _ _ _ T R (self_doc_set e v L n (proj1 (reached_visited _ _ _ _ R)) K F Sd D)) as (a & b & s1 & M & G & _ & o & ->).
  exact (proj1 G _ M).
Qed.
