(** Config files as text. Lemmas for C65. *)
From Verif Require Import PyBase PyLemmas Utility RulesData Rules Config Ini Spec_Base Spec_Utility Spec_Config Spec_Ini Proof_Utility Proof_Formats.

(** ** Text *)
Lemma sall_and f g s : sall (fun c => f c && g c) s = true <-> sall f s = true /\ sall g s = true.
Proof.
  induction s as [|c s IH]; [cbn; tauto|]. rewrite !sall_cons, !andb_true_iff, IH. tauto.
Qed.
Lemma gap_space s : gap s -> sall is_space s = true.
Proof. intros H. apply sall_and in H. apply H. Qed.
Lemma gap_line s : gap s -> one_line s.
Proof. intros H. apply sall_and in H. apply H. Qed.
Lemma one_line_app a b : one_line a -> one_line b -> one_line (a +++ b).
Proof. unfold one_line. intros A B. rewrite sall_app, A, B. reflexivity. Qed.
Lemma lstrip_gap w s : sall is_space w = true -> lstrip (w +++ s) = lstrip s.
Proof.
  induction w as [|c w IH]; intros H; [reflexivity|]. rewrite sall_cons in H. apply andb_prop in H. destruct H as [A B].
  rewrite app_cons_s. cbn [lstrip]. rewrite A. apply IH. exact B.
Qed.
Lemma snoc_s s : s <> "" -> exists r c, s = r +++ String c "".
Proof.
  induction s as [|c s IH]; [congruence|]. intros _. destruct s as [|d s]; [exists "", c; reflexivity|].
  destruct IH as (r & x & E); [discriminate|]. exists (String c r), x. rewrite E. reflexivity.
Qed.
Lemma rstrip_gap s w : sall is_space w = true -> rstrip (s +++ w) = rstrip s.
Proof.
  intros H. induction s as [|c s IH]; [apply rstrip_spaces; exact H|]. rewrite app_cons_s. cbn [rstrip]. rewrite IH. reflexivity.
Qed.
Lemma solid_rstrip s : s = "" \/ solid s -> rstrip s = s.
Proof.
  intros [->|(N & _ & E)]; [reflexivity|]. destruct (snoc_s s N) as (r & c & ->). specialize (E r c eq_refl).
  rewrite rstrip_app; cbn [rstrip]; rewrite E; [reflexivity|discriminate].
Qed.
Lemma solid_lstrip s t : solid s -> lstrip (s +++ t) = s +++ t.
Proof.
  intros (N & B & _). destruct s as [|c s]; [congruence|]. rewrite app_cons_s. cbn [lstrip]. rewrite (B c s eq_refl). reflexivity.
Qed.
Lemma strip_solid w s w' : gap w -> solid s -> gap w' -> strip (w +++ s +++ w') = s.
Proof.
  intros Hw Hs Hw'. unfold strip. rewrite lstrip_gap, solid_lstrip, rstrip_gap by (assumption || apply gap_space; assumption).
  apply solid_rstrip. right. exact Hs.
Qed.
Lemma lstrip_spaces s : sall is_space s = true -> lstrip s = "".
Proof. intros H. rewrite <- (app_nil_s s), lstrip_gap by exact H. reflexivity. Qed.
Lemma strip_gap s : gap s -> strip s = "".
Proof. intros H. unfold strip. rewrite lstrip_spaces by (apply gap_space; exact H). reflexivity. Qed.
Lemma indent_gap w s : sall is_space w = true -> indent_of (w +++ s) = (String.length w + indent_of s)%nat.
Proof.
  induction w as [|c w IH]; intros H; [reflexivity|]. rewrite sall_cons in H. apply andb_prop in H. destruct H as [A B].
  rewrite app_cons_s. cbn [indent_of String.length]. rewrite A, IH by exact B. reflexivity.
Qed.
Lemma indent_solid w s t : gap w -> solid s -> indent_of (w +++ s +++ t) = String.length w.
Proof.
  intros Hw (N & B & _). rewrite indent_gap by (apply gap_space; exact Hw). destruct s as [|c s]; [congruence|].
  rewrite app_cons_s. cbn [indent_of]. rewrite (B c s eq_refl). lia.
Qed.

(** The newline at the end of a line is of no account. *)
Lemma strip_nl l : strip (l +++ nl) = strip l.
Proof.
  unfold strip. assert (H : lstrip (l +++ nl) = lstrip l \/ lstrip (l +++ nl) = lstrip l +++ nl).
  { induction l as [|c l IH]; [left; reflexivity|]. rewrite app_cons_s. cbn [lstrip]. destruct (is_space c); [exact IH|right; reflexivity]. }
  destruct H as [-> | ->]; [reflexivity|]. apply rstrip_gap. reflexivity.
Qed.
Lemma indent_nl l : strip l <> "" -> indent_of (l +++ nl) = indent_of l.
Proof.
  intros H. induction l as [|c l IH]; [exfalso; apply H; reflexivity|]. rewrite app_cons_s. cbn [indent_of].
  unfold strip in *. cbn [lstrip] in H. destruct (is_space c); [|reflexivity]. f_equal. apply IH. exact H.
Qed.
Lemma read_line_nl nv st l : read_line nv st (l +++ nl) = read_line nv st l.
Proof.
  unfold read_line. rewrite strip_nl. destruct (is_comment (strip l)); [reflexivity|].
  destruct (String.eqb_spec (strip l) "") as [|N]; [reflexivity|]. rewrite (indent_nl l N). reflexivity.
Qed.
Lemma universal_app l t : one_line l -> universal (l +++ t) = l +++ universal t.
Proof.
  unfold one_line. induction l as [|c l IH]; intros H; [reflexivity|]. rewrite sall_cons in H. apply andb_prop in H. destruct H as [A B].
  rewrite !app_cons_s. cbn [universal]. unfold line_char in A. apply andb_prop in A. destruct A as [_ A]. apply negb_true_iff in A. rewrite A, IH by exact B. reflexivity.
Qed.
Lemma readlines_app l t : one_line l -> readlines (l +++ String lf t) = (l +++ nl) :: readlines t.
Proof.
  unfold one_line. induction l as [|c l IH]; intros H; [reflexivity|]. rewrite sall_cons in H. apply andb_prop in H. destruct H as [A B].
  rewrite !app_cons_s. cbn [readlines]. unfold line_char in A. apply andb_prop in A. destruct A as [A _]. apply negb_true_iff in A. rewrite A, IH by exact B. reflexivity.
Qed.
Lemma readlines_one l : one_line l -> l <> "" -> readlines l = [l].
Proof.
  unfold one_line. induction l as [|c l IH]; intros H N; [congruence|]. rewrite sall_cons in H. apply andb_prop in H. destruct H as [A B].
  cbn [readlines]. unfold line_char in A. apply andb_prop in A. destruct A as [A _]. apply negb_true_iff in A. rewrite A.
  destruct l as [|d l]; [reflexivity|]. rewrite IH by (assumption || discriminate). reflexivity.
Qed.
Lemma read_text nv ls t : text_of ls t -> Forall one_line ls -> forall st,
  read_lines nv st (readlines (universal t)) = read_lines nv st ls.
Proof.
  intros T. induction T as [|l N|l e ls t E T IH]; intros F st; [reflexivity| |]; inversion_clear F as [|? ? A B].
  - rewrite <- (app_nil_s l) at 1. rewrite universal_app by exact A. cbn [universal]. rewrite app_nil_s, readlines_one by assumption. reflexivity.
  - rewrite universal_app by exact A. replace (universal (e +++ t)) with (String lf (universal t)) by (destruct E as [-> | ->]; reflexivity).
    rewrite readlines_app by exact A. cbn [read_lines]. rewrite read_line_nl. destruct (read_line nv st l); [apply IH; exact B|reflexivity].
Qed.

(** ** Dicts *)
Lemma assoc_snoc {A} k (v : A) l : ~ In k (map fst l) -> assoc k (l ++ [(k, v)]) = Some v.
Proof.
  induction l as [|[k' v'] l IH]; intros H; cbn [assoc app].
  - rewrite String.eqb_refl. reflexivity.
  - cbn [map fst] in H. destruct (String.eqb_spec k k') as [->|]; [exfalso; apply H; left; reflexivity|]. apply IH. intros C. apply H. right. exact C.
Qed.
Lemma dict_snoc {A} k (v v' : A) l : ~ In k (map fst l) -> dict_set k v' (l ++ [(k, v)]) = l ++ [(k, v')].
Proof.
  induction l as [|[k' w] l IH]; intros H; cbn [dict_set app].
  - rewrite String.eqb_refl. reflexivity.
  - cbn [map fst] in H. destruct (String.eqb_spec k k') as [->|]; [exfalso; apply H; left; reflexivity|]. f_equal. apply IH. intros C. apply H. right. exact C.
Qed.
Lemma dict_new {A} k (v : A) l : ~ In k (map fst l) -> dict_set k v l = l ++ [(k, v)].
Proof.
  induction l as [|[k' w] l IH]; intros H; cbn [dict_set app]; [reflexivity|].
  cbn [map fst] in H. destruct (String.eqb_spec k k') as [->|]; [exfalso; apply H; left; reflexivity|]. f_equal. apply IH. intros C. apply H. right. exact C.
Qed.

(** ** Lines *)
(** While reading the section [n]. *)
Definition inside (done : list (string * options)) (n : string) (os : options) (defs : options) (opt : string) (ind : nat)
    (added : list (string * string)) : rstate :=
  mkR (mkIni (done ++ [(n, os)]) defs) (Some n) opt ind added false.
Lemma cursect_inside done n os defs : ~ In n (map fst done) -> cursect (mkIni (done ++ [(n, os)]) defs) n = os.
Proof. intros H. unfold cursect. cbn [i_sections]. rewrite assoc_snoc by exact H. reflexivity. Qed.
Lemma w_cursect_inside done n os os' defs : ~ In n (map fst done) ->
  w_cursect (mkIni (done ++ [(n, os)]) defs) n os' = mkIni (done ++ [(n, os')]) defs.
Proof. intros H. unfold w_cursect. cbn [i_sections i_defaults]. rewrite assoc_snoc, dict_snoc by exact H. reflexivity. Qed.

Lemma rstrip_head c t : is_space c = false -> rstrip (String c t) = String c (rstrip t).
Proof. intros H. cbn [rstrip]. rewrite H. destruct (rstrip t); reflexivity. Qed.
Lemma read_comment nv st l : comment_line l -> read_line nv st l = inl st.
Proof.
  intros (w & m & t & Hw & Hm & Ht & ->). unfold read_line.
  assert (E : is_comment (strip (w +++ m +++ t)) = true).
  { unfold strip. rewrite lstrip_gap by (apply gap_space; exact Hw). destruct Hm as [-> | ->]; rewrite app_cons_s; cbn [lstrip];
      change (is_space "#") with false; change (is_space ";") with false; cbv iota; rewrite rstrip_head by reflexivity; reflexivity. }
  rewrite E. reflexivity.
Qed.
Lemma read_blank nv st l : gap l -> r_opt st = "" -> read_line nv st l = inl st.
Proof.
  intros H E. unfold read_line. rewrite (strip_gap l H), E. cbn. destruct (r_sect st); reflexivity.
Qed.
Lemma read_silent nv st ls : Forall silent ls -> r_opt st = "" -> read_lines nv st ls = inl st.
Proof.
  intros F E. induction F as [|l ls [H|H] F IH]; [reflexivity|..]; cbn [read_lines].
  - rewrite read_comment by exact H. exact IH.
  - rewrite read_blank by assumption. exact IH.
Qed.
Lemma read_silent_bare nv done n os defs opt ind added ls : ~ In n (map fst done) -> ~ In opt (map fst os) -> Forall silent ls ->
  read_lines nv (inside done n (os ++ [(opt, INone)]) defs opt ind added) ls = inl (inside done n (os ++ [(opt, INone)]) defs opt ind added).
Proof.
  intros Hn Ho F. induction F as [|l ls [H|H] F IH]; [reflexivity|..]; cbn [read_lines].
  - rewrite read_comment by exact H. exact IH.
  - replace (read_line nv (inside done n (os ++ [(opt, INone)]) defs opt ind added) l) with (inl ini_error (inside done n (os ++ [(opt, INone)]) defs opt ind added)); [exact IH|].
    unfold read_line. rewrite (strip_gap l H). cbn [is_comment inside r_sect r_opt r_ini]. change (String.eqb "" "") with true. cbv iota.
    destruct (String.eqb opt ""); [reflexivity|]. rewrite cursect_inside, assoc_snoc by assumption. reflexivity.
Qed.
Lemma content_fresh v : content v -> is_comment v = false /\ String.eqb v "" = false.
Proof.
  intros ((N & _) & _ & N1 & N2). destruct v as [|c v]; [congruence|]. split; [|reflexivity]. cbn [is_comment].
  destruct (Ascii.eqb_spec c "#") as [->|]; [exfalso; apply N1; eexists; reflexivity|].
  destruct (Ascii.eqb_spec c ";") as [->|]; [exfalso; apply N2; eexists; reflexivity|]. reflexivity.
Qed.
Lemma read_following nv done n os defs opt ind added ls vs : ~ In n (map fst done) -> ~ In opt (map fst os) -> opt <> "" ->
  following ind ls vs -> forall k,
  read_lines nv (inside done n (os ++ [(opt, ILines k)]) defs opt ind added) ls = inl (inside done n (os ++ [(opt, ILines (k ++ vs))]) defs opt ind added).
Proof.
  intros Hn Ho Hne F. apply String.eqb_neq in Hne. induction F as [|l ls vs H F IH|l ls vs H F IH|w v w' ls vs Hw Hl Hv Hw' F IH]; intros k; cbn [read_lines].
  - rewrite app_nil_r. reflexivity.
  - rewrite read_comment by exact H. apply IH.
  - unfold read_line. rewrite (strip_gap l H). cbn [is_comment inside r_sect r_opt r_ini r_indent r_added r_bad]. change (String.eqb "" "") with true. cbv iota. rewrite Hne.
    rewrite cursect_inside, assoc_snoc, dict_snoc, w_cursect_inside by assumption. fold (inside done n (os ++ [(opt, ILines (k ++ [""]))]) defs opt ind added).
    rewrite IH. rewrite <- app_assoc. reflexivity.
  - assert (Hs := Hv). destruct Hs as (Hs & _). destruct (content_fresh v Hv) as [C1 C2]. unfold read_line.
    rewrite (strip_solid w v w' Hw Hs Hw'), C1, C2. cbn [inside r_sect r_opt r_ini r_indent r_added r_bad]. rewrite Hne, (indent_solid w v w' Hw Hs).
    replace (ind <? String.length w)%nat with true by (symmetry; apply Nat.ltb_lt; exact Hl).
    rewrite cursect_inside, assoc_snoc, dict_snoc, w_cursect_inside by assumption. fold (inside done n (os ++ [(opt, ILines (k ++ [v]))]) defs opt ind added).
    rewrite IH. rewrite <- app_assoc. reflexivity.
Qed.

(** Option lines. *)
Lemma split_none a c t : sall (fun c => negb (Ascii.eqb c "=") && negb (Ascii.eqb c ":")) a = true -> is_delim c = true ->
  split_delim (a +++ String c t) = Some (a, t).
Proof.
  intros H D. induction a as [|x a IH]; [cbn; rewrite D; reflexivity|]. rewrite app_cons_s. cbn [split_delim]. rewrite sall_cons in H. apply andb_prop in H. destruct H as [A B].
  unfold is_delim at 1. apply andb_prop in A. destruct A as [A1 A2]. apply negb_true_iff in A1, A2. rewrite A1, A2. cbn [orb]. rewrite IH by exact B. reflexivity.
Qed.
Lemma split_nothing a : sall (fun c => negb (Ascii.eqb c "=") && negb (Ascii.eqb c ":")) a = true -> split_delim a = None.
Proof.
  intros H. induction a as [|x a IH]; cbn [split_delim]; [reflexivity|]. rewrite sall_cons in H. apply andb_prop in H. destruct H as [A B].
  unfold is_delim. apply andb_prop in A. destruct A as [A1 A2]. apply negb_true_iff in A1, A2. rewrite A1, A2. cbn [orb]. rewrite IH by exact B. reflexivity.
Qed.
Lemma gap_delims a : gap a -> sall (fun c => negb (Ascii.eqb c "=") && negb (Ascii.eqb c ":")) a = true.
Proof.
  intros H. apply gap_space in H. revert H. apply sall_impl. intros c Hc. destruct (Ascii.eqb_spec c "=") as [->|]; [discriminate Hc|].
  destruct (Ascii.eqb_spec c ":") as [->|]; [discriminate Hc|]. reflexivity.
Qed.
Lemma lower_empty s : lower s = "" -> s = "".
Proof. destruct s; [reflexivity|discriminate]. Qed.

(** What an option line is read as. *)
Definition opens (nv : bool) (line : string) (ind : nat) (name : string) (v : option string) : Prop :=
  is_comment (strip line) = false /\ String.eqb (strip line) "" = false /\ indent_of line = ind /\
  section_header (strip line) = None /\ option_line nv (strip line) = Some (name, v) /\ name <> "" /\ rstrip name = name.
Lemma first_char name t : option_name name ->
  is_comment (name +++ t) = false /\ String.eqb (name +++ t) "" = false /\ section_header (name +++ t) = None.
Proof.
  intros (((N & _) & _ & N1 & N2) & N3 & _). destruct name as [|c r]; [congruence|]. rewrite app_cons_s. cbn [is_comment section_header].
  destruct (Ascii.eqb_spec c "#") as [->|]; [exfalso; apply N1; eexists; reflexivity|].
  destruct (Ascii.eqb_spec c ";") as [->|]; [exfalso; apply N2; eexists; reflexivity|].
  destruct (Ascii.eqb_spec c "[") as [->|]; [exfalso; apply N3; eexists; reflexivity|]. repeat split.
Qed.
Lemma value_line nv w name a d b v w' : gap w -> option_name name -> gap a -> (d = "=" \/ d = ":") -> gap b ->
  (v = "" \/ solid v) -> gap w' -> opens nv (w +++ name +++ a +++ d +++ b +++ v +++ w') (String.length w) name (Some v).
Proof.
  intros Hw Hn Ha Hd Hb Hv Hw'. assert (Hs : solid name) by apply Hn. destruct (snd (pair (0%nat) Hn)) as (_ & _ & Hdel).
  assert (exists dc, d = chr dc /\ is_delim dc = true /\ is_space dc = false) as (dc & -> & D1 & D2).
  { destruct Hd as [-> | ->]; [exists "="%char|exists ":"%char]; repeat split. }
  assert (S : strip (w +++ name +++ a +++ chr dc +++ b +++ v +++ w') = (name +++ a) +++ String dc (rstrip (b +++ v +++ w'))).
  { unfold strip. rewrite lstrip_gap by (apply gap_space; exact Hw). rewrite solid_lstrip by exact Hs. rewrite <- app_assoc_s.
    change (chr dc +++ ?x) with (String dc x). rewrite rstrip_app; rewrite rstrip_head by exact D2; [reflexivity|discriminate]. }
  assert (V : strip (rstrip (b +++ v +++ w')) = v).
  { destruct Hv as [->|Hv].
    - rewrite (rstrip_spaces (b +++ "" +++ w')); [reflexivity|]. rewrite !sall_app, (gap_space _ Hb), (gap_space _ Hw'). reflexivity.
    - rewrite <- app_assoc_s, rstrip_gap by (apply gap_space; exact Hw'). assert (Rv : rstrip v = v) by (apply solid_rstrip; right; exact Hv). rewrite rstrip_app by (rewrite Rv; apply Hv). rewrite Rv.
      rewrite <- (app_nil_s v) at 1. rewrite strip_solid; [reflexivity|exact Hb|exact Hv|reflexivity]. }
  unfold opens. rewrite S. destruct (first_char name (a +++ String dc (rstrip (b +++ v +++ w'))) Hn) as (F1 & F2 & F3). rewrite app_assoc_s.
  split; [exact F1|]. split; [exact F2|]. split; [rewrite indent_solid by assumption; reflexivity|]. split; [exact F3|].
  split; [|split; [apply Hs|apply solid_rstrip; right; exact Hs]].
  unfold option_line. rewrite <- app_assoc_s. rewrite split_none; [|rewrite sall_app, Hdel, (gap_delims a Ha); reflexivity|exact D1].
  rewrite rstrip_gap by (apply gap_space; exact Ha). rewrite solid_rstrip by (right; exact Hs). rewrite V. reflexivity.
Qed.
Lemma bare_line w name w' : gap w -> option_name name -> gap w' -> opens true (w +++ name +++ w') (String.length w) name None.
Proof.
  intros Hw Hn Hw'. assert (Hs : solid name) by apply Hn. unfold opens. rewrite strip_solid by assumption.
  destruct (first_char name "" Hn) as (F1 & F2 & F3). rewrite app_nil_s in *. split; [exact F1|]. split; [exact F2|]. split; [apply indent_solid; assumption|].
  split; [exact F3|]. split; [|split; [apply Hs|apply solid_rstrip; right; exact Hs]]. unfold option_line. rewrite split_nothing by apply Hn. reflexivity.
Qed.
Lemma existsb_pair n o l : (forall p, In p l -> p <> (n, o)) -> existsb (pair_eqb (n, o)) l = false.
Proof.
  intros H. apply not_true_iff_false. intros E. apply existsb_exists in E. destruct E as ([a b] & I & P). unfold pair_eqb in P. cbn [fst snd] in P.
  apply andb_prop in P. destruct P as [P1 P2]. apply String.eqb_eq in P1, P2. subst. eapply H; [exact I|reflexivity].
Qed.
(** The options read so far. *)
Definition added_ok (seen : list string) (added : list (string * string)) (done : list (string * options)) (n : string) (os : options) : Prop :=
  forall p, In p added -> In (fst p) (map fst done) \/ fst p = n /\ In (snd p) (map fst os) \/ fst p = "DEFAULT" /\ In (snd p) seen.
Lemma read_opens seen nv done n os defs opt ind added line k name v : ~ In n (map fst done) -> n <> "DEFAULT" -> added_ok seen added done n os ->
  (opt = "" \/ (k <= ind)%nat) -> ~ In (lower name) (map fst os) -> opens nv line k name v ->
  let added' := (n, lower name) :: added in
  let os' := os ++ [(lower name, match v with Some v => ILines [v] | None => INone end)] in
  read_line nv (inside done n os defs opt ind added) line = inl (inside done n os' defs (lower name) k added') /\ added_ok seen added' done n os'.
Proof.
  intros Hn HD Ha Hi Ho (O1 & O2 & O3 & O4 & O5 & O6 & O7) added' os'. split.
  - unfold read_line. rewrite O1, O2, O3, O4, O5. cbn [inside r_sect r_opt r_ini r_indent r_added r_bad].
    replace (match (if String.eqb opt "" then None else Some n) with
             | Some n0 => if (ind <? k)%nat then match assoc opt (cursect (mkIni (done ++ [(n, os)]) defs) n0) with
                 | Some (ILines l) => inl (mkR (w_cursect (mkIni (done ++ [(n, os)]) defs) n0 (dict_set opt (ILines (l ++ [strip line])) (cursect (mkIni (done ++ [(n, os)]) defs) n0))) (Some n) opt ind added false)
                 | _ => inr EAttribute end else _ | None => _ end) with
      (if existsb (pair_eqb (n, lower (rstrip name))) added then inr EDuplicate
       else inl (mkR (w_cursect (mkIni (done ++ [(n, os)]) defs) n (dict_set (lower (rstrip name)) (match v with Some v => ILines [v] | None => INone end) (cursect (mkIni (done ++ [(n, os)]) defs) n))) (Some n) (lower (rstrip name)) k ((n, lower (rstrip name)) :: added) (false || String.eqb name ""))).
    2:{ destruct (String.eqb_spec opt ""); [reflexivity|]. destruct Hi as [|Hi]; [congruence|]. replace (ind <? k)%nat with false by (symmetry; apply Nat.ltb_ge; exact Hi). reflexivity. }
    rewrite O7, existsb_pair.
    + rewrite cursect_inside, dict_new, w_cursect_inside by assumption. apply String.eqb_neq in O6. rewrite O6. reflexivity.
    + intros p Hp ->. apply Ha in Hp. cbn [fst snd] in Hp. destruct Hp as [Hp|[[_ Hp]|[Hp _]]]; [apply Hn; exact Hp|apply Ho; exact Hp|exact (HD Hp)].
  - intros p [<-|Hp]; cbn [fst snd].
    + right. left. split; [reflexivity|]. unfold os'. rewrite map_app. apply in_or_app. right. left. reflexivity.
    + apply Ha in Hp. destruct Hp as [Hp|[[Hp1 Hp2]|Hp]]; [left; exact Hp| |right; right; exact Hp]. right. left. split; [exact Hp1|]. unfold os'. rewrite map_app. apply in_or_app. left. exact Hp2.
Qed.

(** ** Sections *)
Definition values (os : options) : list (string * option string) := map (fun o => (fst o, value_of (snd o))) os.
Lemma keys_values os : map fst (values os) = map fst os.
Proof. unfold values. rewrite map_map. reflexivity. Qed.
Lemma read_app nv st a b : read_lines nv st (a ++ b) = match read_lines nv st a with inl st' => read_lines nv st' b | inr e => inr e end.
Proof.
  revert st. induction a as [|x a IH]; intros st; [reflexivity|]. cbn [app read_lines]. destruct (read_line nv st x); [apply IH|reflexivity].
Qed.
Lemma read_entry seen nv k done n os defs opt ind added ls e : ~ In n (map fst done) -> n <> "DEFAULT" -> added_ok seen added done n os -> (opt = "" \/ (k <= ind)%nat) ->
  entry k ls e -> ~ In (fst e) (map fst os) -> (nv = true \/ snd e <> None) ->
  exists os' added', values os' = values os ++ [e] /\ added_ok seen added' done n os' /\
    read_lines nv (inside done n os defs opt ind added) ls = inl (inside done n os' defs (fst e) k added').
Proof.
  intros Hn HD Ha Hi E. destruct E as [w name a d b v w' ls vs Hw <- Hname Hgap Hd Hb Hv Hl Hw' F|w name w' ls Hw <- Hname Hw' F]; cbn [fst snd]; intros Ho Hnv.
  - destruct (read_opens seen nv done n os defs opt ind added _ (String.length w) name (Some v) Hn HD Ha Hi Ho (value_line nv w name a d b v w' Hw Hname Hgap Hd Hb Hv Hw')) as [R A].
    cbn [read_lines]. rewrite R. assert (NE : lower name <> "") by (intros C; apply lower_empty in C; revert C; apply Hname).
    exists (os ++ [(lower name, ILines (v :: vs))]), ((n, lower name) :: added). split; [unfold values; rewrite map_app; reflexivity|]. split.
    + intros p Hp. apply A in Hp. rewrite !map_app in *. exact Hp.
    + rewrite (read_following nv done n os defs (lower name) (String.length w) ((n, lower name) :: added) ls vs Hn Ho NE F). reflexivity.
  - destruct Hnv as [->|C]; [|congruence].
    destruct (read_opens seen true done n os defs opt ind added _ (String.length w) name None Hn HD Ha Hi Ho (bare_line w name w' Hw Hname Hw')) as [R A].
    cbn [read_lines]. rewrite R. exists (os ++ [(lower name, INone)]), ((n, lower name) :: added). split; [unfold values; rewrite map_app; reflexivity|]. split; [exact A|].
    apply read_silent_bare; assumption.
Qed.
Lemma read_entries seen nv k done n defs lss es : Forall2 (entry k) lss es -> ~ In n (map fst done) -> n <> "DEFAULT" ->
  (nv = true \/ forall e, In e es -> snd e <> None) ->
  forall os opt ind added, added_ok seen added done n os -> (opt = "" \/ (k <= ind)%nat) -> NoDup (map fst os ++ map fst es) ->
  exists os' opt' ind' added', values os' = values os ++ es /\ added_ok seen added' done n os' /\
    read_lines nv (inside done n os defs opt ind added) (List.concat lss) = inl (inside done n os' defs opt' ind' added').
Proof.
  intros F Hn HD. induction F as [|ls e lss es E F IH]; intros Hnv os opt ind added Ha Hi Hd.
  - exists os, opt, ind, added. rewrite app_nil_r. split; [reflexivity|]. split; [exact Ha|reflexivity].
  - cbn [map] in Hd. destruct (read_entry seen nv k done n os defs opt ind added ls e Hn HD Ha Hi E) as (os' & added' & V & A & R).
    + apply NoDup_remove_2 in Hd. intros C. apply Hd. apply in_or_app. left. exact C.
    + destruct Hnv as [->|Hnv]; [left; reflexivity|right; apply Hnv; left; reflexivity].
    + destruct (IH ltac:(destruct Hnv as [->|Hnv]; [left; reflexivity|right; intros; apply Hnv; right; assumption]) os' (fst e) k added' A (or_intror (le_n _))) as (os2 & opt2 & ind2 & added2 & V2 & A2 & R2).
      { rewrite <- keys_values, V, map_app, keys_values. rewrite <- app_assoc. exact Hd. }
      exists os2, opt2, ind2, added2. split; [rewrite V2, V, <- app_assoc; reflexivity|]. split; [exact A2|].
      cbn [List.concat]. rewrite read_app, R. exact R2.
Qed.
Lemma before_last_none c t : sall (fun x => negb (Ascii.eqb x c)) t = true -> before_last c t = None.
Proof.
  induction t as [|x t IH]; intros H; [reflexivity|]. rewrite sall_cons in H. apply andb_prop in H. destruct H as [A B]. cbn [before_last].
  rewrite IH by exact B. apply negb_true_iff in A. rewrite A. reflexivity.
Qed.
Lemma before_last_app c a t : before_last c t = None -> before_last c (a +++ String c t) = Some a.
Proof.
  intros H. induction a as [|x a IH]; [cbn; rewrite H, Ascii.eqb_refl; reflexivity|]. rewrite app_cons_s. cbn [before_last]. rewrite IH. reflexivity.
Qed.
Lemma rstrip_tail s : exists w, s = rstrip s +++ w.
Proof.
  induction s as [|c s (w & E)]; [exists ""; reflexivity|]. cbn [rstrip]. destruct (rstrip s) as [|d r] eqn:R.
  - destruct (is_space c); [exists (String c s); reflexivity|exists s; reflexivity].
  - exists w. rewrite app_cons_s. f_equal. exact E.
Qed.
Lemma header_line name tail : name <> "" -> sall (fun c => negb (Ascii.eqb c "]")) tail = true ->
  let line := "[" +++ name +++ "]" +++ tail in
  is_comment (strip line) = false /\ String.eqb (strip line) "" = false /\ indent_of line = 0%nat /\ section_header (strip line) = Some name.
Proof.
  intros N T line. assert (S : strip line = String "[" (name +++ String "]" (rstrip tail))).
  { unfold strip, line. change ("[" +++ ?x) with (String "[" x). cbn [lstrip]. change (is_space "[") with false. cbv iota. rewrite rstrip_head by reflexivity. f_equal.
    change ("]" +++ tail) with (String "]" tail). rewrite rstrip_app; rewrite rstrip_head by reflexivity; [reflexivity|discriminate]. }
  rewrite S. split; [reflexivity|]. split; [reflexivity|]. split; [reflexivity|]. cbn [section_header]. change (Ascii.eqb "[" "[") with true. cbv iota.
  rewrite before_last_app; [apply String.eqb_neq in N; rewrite N; reflexivity|]. apply before_last_none.
  destruct (rstrip_tail tail) as (w & E). rewrite E in T. rewrite sall_app in T. apply andb_prop in T. apply T.
Qed.
(** Where the reader stands between sections. *)
Definition between (seen : list string) (done : list (string * options)) (defs : options) (st : rstate) : Prop :=
  r_ini st = mkIni done defs /\ r_bad st = false /\
  (forall p, In p (r_added st) -> In (fst p) (map fst done) \/ fst p = "DEFAULT" /\ In (snd p) seen).
Lemma read_header seen nv done defs st name tail : between seen done defs st -> name <> "" -> sall (fun c => negb (Ascii.eqb c "]")) tail = true ->
  ~ In name (map fst done) -> name <> "DEFAULT" ->
  read_line nv st ("[" +++ name +++ "]" +++ tail) = inl (inside done name [] defs "" 0 (r_added st)).
Proof.
  intros (E & B & _) N T Hn Hd. destruct (header_line name tail N T) as (H1 & H2 & H3 & H4). unfold read_line. rewrite H1, H2, H3, H4.
  assert (K : has_key name (i_sections (r_ini st)) = false) by (rewrite E; unfold has_key; cbn [i_sections]; apply assoc_None in Hn; rewrite Hn; reflexivity).
  rewrite K. apply String.eqb_neq in Hd. rewrite Hd, E, B. cbn [i_sections i_defaults].
  destruct (match r_sect st with Some n => if String.eqb (r_opt st) "" then None else Some n | None => None end); [|reflexivity].
  destruct (r_indent st); reflexivity.
Qed.
Lemma read_block seen nv done defs st ls s : between seen done defs st -> block ls s -> ~ In (fst s) (map fst done) -> fst s <> "DEFAULT" ->
  NoDup (map fst (snd s)) -> (nv = true \/ forall e, In e (snd s) -> snd e <> None) ->
  exists os st', values os = snd s /\ between seen (done ++ [(fst s, os)]) defs st' /\ read_lines nv st ls = inl st'.
Proof.
  intros B K. destruct K as [k name tail pre lss es Hl N Ht T Fp Fe]. cbn [fst snd]. intros Hn Hd Hnd Hnv.
  cbn [read_lines]. rewrite (read_header seen nv done defs st name tail B N T Hn Hd). rewrite read_app, read_silent by (exact Fp || reflexivity).
  destruct B as (_ & _ & Ad).
  destruct (read_entries seen nv k done name defs lss es Fe Hn Hd Hnv [] "" 0 (r_added st)) as (os & opt & ind & added & V & A & R).
  - intros p Hp. destruct (Ad p Hp) as [A|A]; [left; exact A|right; right; exact A].
  - left. reflexivity.
  - exact Hnd.
  - rewrite R. exists os, (inside done name os defs opt ind added). split; [exact V|]. split; [|reflexivity].
    split; [reflexivity|]. split; [reflexivity|]. cbn [inside r_added]. intros p Hp. apply A in Hp. rewrite map_app.
    destruct Hp as [Hp|[[Hp _]|Hp]]; [left; apply in_or_app; left; exact Hp|left; apply in_or_app; right; left; symmetry; exact Hp|right; exact Hp].
Qed.
Definition said_sections (l : list (string * options)) : list (string * list (string * option string)) := map (fun s => (fst s, values (snd s))) l.
Lemma read_blocks seen nv defs lss secs : Forall2 block lss secs -> forall done st, between seen done defs st ->
  NoDup (map fst done ++ map fst secs) -> ~ In "DEFAULT" (map fst secs) -> (forall s, In s secs -> NoDup (map fst (snd s))) ->
  (nv = true \/ forall s e, In s secs -> In e (snd s) -> snd e <> None) ->
  exists done' st', said_sections done' = said_sections done ++ secs /\ between seen done' defs st' /\ read_lines nv st (List.concat lss) = inl st'.
Proof.
  intros F. induction F as [|ls s lss secs K F IH]; intros done st B Nd Hd Hs Hnv.
  - exists done, st. rewrite app_nil_r. split; [reflexivity|]. split; [exact B|reflexivity].
  - cbn [map] in *. destruct (read_block seen nv done defs st ls s B K) as (os & st' & V & B' & R).
    + apply NoDup_remove_2 in Nd. intros C. apply Nd, in_or_app. left. exact C.
    + intros C. apply Hd. left. exact C.
    + apply Hs. left. reflexivity.
    + destruct Hnv as [->|Hnv]; [left; reflexivity|]. right. intros e He. apply (Hnv s); [left; reflexivity|exact He].
    + destruct (IH (done ++ [(fst s, os)]) st' B') as (done2 & st2 & V2 & B2 & R2).
      * rewrite map_app, <- app_assoc. exact Nd.
      * intros C. apply Hd. right. exact C.
      * intros x Hx. apply Hs. right. exact Hx.
      * destruct Hnv as [->|Hnv]; [left; reflexivity|]. right. intros x e Hx. apply Hnv. right. exact Hx.
      * exists done2, st2. split; [|split; [exact B2|cbn [List.concat]; rewrite read_app, R; exact R2]].
        rewrite V2. unfold said_sections. rewrite map_app, <- app_assoc. cbn [map fst snd app]. rewrite V. destruct s; reflexivity.
Qed.
(** Every line of a document is one. *)
Lemma comment_one l : comment_line l -> one_line l.
Proof.
  intros (w & m & t & Hw & Hm & Ht & ->). apply one_line_app; [apply gap_line; exact Hw|]. apply one_line_app; [destruct Hm as [-> | ->]; reflexivity|exact Ht].
Qed.
Lemma silent_one l : silent l -> one_line l.
Proof. intros [H|H]; [apply comment_one; exact H|apply gap_line; exact H]. Qed.
Lemma following_one n ls vs : following n ls vs -> Forall one_line ls.
Proof.
  intros F. induction F; constructor; try assumption; [apply comment_one; assumption|apply gap_line; assumption|].
  apply one_line_app; [apply gap_line; assumption|]. apply one_line_app; [apply H1|apply gap_line; assumption].
Qed.
Lemma entry_one n ls e : entry n ls e -> Forall one_line ls.
Proof.
  intros E. destruct E as [w name a d b v w' ls vs Hw _ Hname Hgap Hd Hb Hv Hl Hw' F|w name w' ls Hw _ Hname Hw' F].
  - constructor; [|eapply following_one; exact F]. apply one_line_app; [apply gap_line; exact Hw|]. apply one_line_app; [apply Hname|].
    apply one_line_app; [apply gap_line; exact Hgap|]. apply one_line_app; [destruct Hd as [-> | ->]; reflexivity|]. apply one_line_app; [apply gap_line; exact Hb|].
    apply one_line_app; [exact Hl|apply gap_line; exact Hw'].
  - constructor; [|revert F; apply Forall_impl; exact silent_one]. apply one_line_app; [apply gap_line; exact Hw|]. apply one_line_app; [apply Hname|apply gap_line; exact Hw'].
Qed.
Lemma concat_one {B} (P : list string -> B -> Prop) lss es : (forall ls e, P ls e -> Forall one_line ls) -> Forall2 P lss es -> Forall one_line (List.concat lss).
Proof. intros H F. induction F; [constructor|]. cbn [List.concat]. apply Forall_app. split; [eapply H; eassumption|assumption]. Qed.
Lemma block_one ls s : block ls s -> Forall one_line ls.
Proof.
  intros K. destruct K as [k name tail pre lss es Hl N Ht T Fp Fe]. constructor.
  - apply one_line_app; [reflexivity|]. apply one_line_app; [exact Hl|]. apply one_line_app; [reflexivity|exact Ht].
  - apply Forall_app. split; [revert Fp; apply Forall_impl; exact silent_one|]. eapply concat_one; [|exact Fe]. intros. eapply entry_one; eassumption.
Qed.
Lemma document_one ls secs : document ls secs -> Forall one_line ls.
Proof.
  intros (pre & lss & Fp & Fb & ->). apply Forall_app. split; [revert Fp; apply Forall_impl; exact silent_one|]. eapply concat_one; [|exact Fb]. intros. eapply block_one; eassumption.
Qed.
Lemma read_document nv defs ls secs t : document ls secs -> distinct secs -> text_of ls t ->
  (nv = true \/ forall s e, In s secs -> In e (snd s) -> snd e <> None) ->
  exists i, ini_read nv defs (readlines (universal t)) = inl i /\ said i = secs /\ i_defaults i = defs.
Proof.
  intros D (D1 & D2 & D3) T Hnv. unfold ini_read. rewrite (read_text nv ls t T (document_one ls secs D)).
  destruct D as (pre & lss & Fp & Fb & ->). rewrite read_app, read_silent by (exact Fp || reflexivity).
  destruct (read_blocks [] nv defs lss secs Fb [] (mkR (mkIni [] defs) None "" 0 [] false)) as (done & st & V & (E & B & _) & R); try assumption.
  - split; [reflexivity|]. split; [reflexivity|]. intros p [].
  - rewrite R, B. exists (r_ini st). split; [reflexivity|]. rewrite E. split; [exact V|reflexivity].
Qed.

(** ** Interpolation *)
Lemma interpolate_escape m d v : forall fuel, (String.length (escape v) < fuel)%nat -> interpolate m (S d) fuel (escape v) = Ok v.
Proof.
  induction v as [|c v IH]; intros fuel L; (destruct fuel as [|fuel]; [lia|]); [reflexivity|]. cbn [escape] in *.
  destruct (Ascii.eqb_spec c "%") as [->|N].
  - cbn [String.length] in L. change (interpolate m (S d) (S fuel) (String "%" (String "%" (escape v)))) with (mapr (String "%") (interpolate m (S d) fuel (escape v))).
    rewrite IH by lia. reflexivity.
  - cbn [String.length] in L. assert (E : interpolate m (S d) (S fuel) (String c (escape v)) = mapr (String c) (interpolate m (S d) fuel (escape v))).
    { cbn [interpolate]. apply Ascii.eqb_neq in N. rewrite N. reflexivity. }
    rewrite E, IH by lia. reflexivity.
Qed.
Lemma escape_id s : sall (fun c => negb (Ascii.eqb c "%")) s = true -> escape s = s.
Proof.
  induction s as [|c s IH]; intros H; [reflexivity|]. rewrite sall_cons in H. apply andb_prop in H. destruct H as [A B]. cbn [escape].
  apply negb_true_iff in A. rewrite A, IH by exact B. reflexivity.
Qed.
Lemma default_texts cpus o d : assoc o (default_args cpus) = Some d -> escape d = d.
Proof.
  intros H. apply assoc_In in H. apply escape_id. cbn in H.
  repeat (destruct H as [H|H]; [injection H as _ <-; try reflexivity|]); try contradiction.
  eapply sall_impl; [|apply z_str_chars]. intros c Hc. destruct (Ascii.eqb_spec c "%") as [->|]; [discriminate Hc|reflexivity].
Qed.

(** ** The section of a document *)
Lemma assoc_map {A B} (f : A -> B) k l : assoc k (map (fun p => (fst p, f (snd p))) l) = option_map f (assoc k l).
Proof.
  induction l as [|[k' v] l IH]; [reflexivity|]. cbn [map assoc fst snd]. destruct (String.eqb k k'); [reflexivity|exact IH].
Qed.
Lemma assoc_said i n : assoc n (said i) = option_map values (assoc n (i_sections i)).
Proof. unfold said. fold values. exact (assoc_map values n (i_sections i)). Qed.
Lemma lookup_said i n es : assoc n (said i) = Some es ->
  forall o, lookup i n o = match assoc o es with Some v => Some v | None => option_map value_of (assoc o (i_defaults i)) end.
Proof.
  intros H o. rewrite assoc_said in H. unfold lookup. destruct (assoc n (i_sections i)) as [os|]; [|discriminate]. injection H as <-.
  unfold values. rewrite (assoc_map value_of). destruct (assoc o os); reflexivity.
Qed.
Definition alike (s s' : section) : Prop := forall o, In o option_names -> sec_get s o = sec_get s' o /\ sec_default s o = sec_default s' o.
Lemma parse_alike cpus re_ok s s' : alike s s' -> parse_section cpus re_ok s = parse_section cpus re_ok s'.
Proof.
  intros H. assert (B : forall o, In o option_names -> getbool s o = getbool s' o) by (intros o Ho; unfold getbool; destruct (H o Ho) as [-> ->]; reflexivity).
  assert (U : forall o, In o option_names -> getuint s o = getuint s' o) by (intros o Ho; unfold getuint; destruct (H o Ho) as [-> ->]; reflexivity).
  assert (L : forall o, In o option_names -> getstringlist s o = getstringlist s' o) by (intros o Ho; unfold getstringlist; destruct (H o Ho) as [-> _]; reflexivity).
  assert (I : forall o, mem o option_names = true -> In o option_names).
  { intros o Ho. apply mem_In. exact Ho. }
  unfold parse_section. rewrite !B, !U, !L by (apply I; reflexivity). destruct (H "format" (I "format" eq_refl)) as [-> _]. reflexivity.
Qed.
Lemma in_option_names o : In o option_names -> lower o = o /\ exists d, forall cpus, option_map (fun _ : string => tt) (assoc o (default_args cpus)) = Some d.
Proof.
  unfold option_names. cbn [In]. intros H. repeat (destruct H as [<-|H]; [split; [reflexivity|exists tt; reflexivity]|]). contradiction.
Qed.
Lemma view_alike cpus i es : assoc "vermin" (said i) = Some (escaped es) -> i_defaults i = map (fun p => (fst p, IText (snd p))) (default_args cpus) ->
  alike (vermin_view i) (section_of cpus es).
Proof.
  intros H D o Ho. destruct (in_option_names o Ho) as (Lo & [] & Hd). specialize (Hd cpus).
  destruct (assoc o (default_args cpus)) as [d|] eqn:Ed; [|discriminate]. clear Hd.
  assert (A : assoc o (i_defaults i) = Some (IText d)) by (rewrite D, (assoc_map IText), Ed; reflexivity).
  split.
  - cbn [vermin_view sec_get section_of]. unfold ini_get. rewrite Lo, (lookup_said i "vermin" (escaped es) H). unfold escaped. rewrite (assoc_map (option_map escape)).
    destruct (assoc o es) as [[v|]|]; cbn [option_map]; [rewrite interpolate_escape by lia; reflexivity|reflexivity|].
    rewrite A. cbn [option_map value_of]. rewrite Ed. rewrite <- (default_texts cpus o d Ed) at 2. rewrite interpolate_escape; [reflexivity|].
    rewrite (default_texts cpus o d Ed). lia.
  - cbn [vermin_view sec_default section_of]. rewrite A, Ed. reflexivity.
Qed.
Lemma config_as_written cpus re_ok ls secs es t : document ls secs -> distinct secs -> In ("vermin", escaped es) secs -> text_of ls t ->
  parse_file cpus re_ok (cfg_of_text cpus t) = parse_file cpus re_ok (CfgSection (section_of cpus es)).
Proof.
  intros D Di Hv T. unfold cfg_of_text.
  destruct (read_document true (map (fun p => (fst p, IText (snd p))) (default_args cpus)) ls secs t D Di T (or_introl eq_refl)) as (i & R & S & Df).
  rewrite R. assert (A : assoc "vermin" (said i) = Some (escaped es)) by (rewrite S; apply In_assoc; [apply Di|exact Hv]).
  assert (K : has_key "vermin" (i_sections i) = true) by (rewrite assoc_said in A; unfold has_key; destruct (assoc "vermin" (i_sections i)); [reflexivity|discriminate]).
  rewrite K. cbn [parse_file]. rewrite (parse_alike cpus re_ok _ _ (view_alike cpus i es A Df)). reflexivity.
Qed.
Lemma no_section_written cpus ls secs t : document ls secs -> distinct secs -> text_of ls t -> ~ In "vermin" (map fst secs) ->
  cfg_of_text cpus t = CfgNoSection.
Proof.
  intros D Di T N. unfold cfg_of_text.
  destruct (read_document true (map (fun p => (fst p, IText (snd p))) (default_args cpus)) ls secs t D Di T (or_introl eq_refl)) as (i & R & S & Df).
  rewrite R. apply assoc_None in N. rewrite <- S, assoc_said in N. unfold has_key. destruct (assoc "vermin" (i_sections i)); [discriminate|reflexivity].
Qed.

(** ** A file that is found can be read *)
Definition twin (a b : rstate) : Prop :=
  i_sections (r_ini a) = i_sections (r_ini b) /\ r_sect a = r_sect b /\ r_opt a = r_opt b /\ r_indent a = r_indent b /\
  r_added a = r_added b /\ r_bad a = r_bad b /\
  forall n, r_sect a = Some n -> r_opt a <> "" -> assoc n (i_sections (r_ini a)) = None ->
    exists l, assoc (r_opt a) (i_defaults (r_ini b)) = Some (ILines l).
Lemma twin_write ia ib n o v sect ind added bad : i_sections ia = i_sections ib -> sect = Some n -> (exists l, v = ILines l) ->
  forall va, (forall os, assoc n (i_sections ia) = Some os -> va = v) ->
  twin (mkR (w_cursect ia n (dict_set o va (cursect ia n))) sect o ind added bad) (mkR (w_cursect ib n (dict_set o v (cursect ib n))) sect o ind added bad).
Proof.
  intros E -> (l & ->) va Hv. unfold twin, w_cursect, cursect. rewrite <- E. destruct (assoc n (i_sections ia)) as [os|] eqn:A.
  - rewrite (Hv os eq_refl). cbn [r_ini r_sect r_opt r_indent r_added r_bad i_sections i_defaults]. repeat (split; [reflexivity|]).
    intros n' Hn _ Hs. injection Hn as <-. rewrite assoc_dict_set, String.eqb_refl in Hs. discriminate.
  - cbn [r_ini r_sect r_opt r_indent r_added r_bad i_sections i_defaults]. repeat (split; [reflexivity|]).
    intros _ _ _ _. exists l. rewrite assoc_dict_set, String.eqb_refl. reflexivity.
Qed.
Lemma option_line_true s o v : option_line false s = Some (o, v) -> option_line true s = Some (o, v) /\ exists x, v = Some x.
Proof.
  unfold option_line. destruct (split_delim s) as [[x y]|]; [|discriminate]. intros H. injection H as <- <-. split; [reflexivity|eauto].
Qed.
Lemma twin_line a b x a' : twin a b -> read_line false a x = inl a' -> r_bad a' = false -> exists b', read_line true b x = inl b' /\ twin a' b'.
Proof.
  intros T R B. destruct T as (T1 & T2 & T3 & T4 & T5 & T6 & T7). destruct a as [ia sa oa na aa ba], b as [ib sb ob nb ab bb].
  cbn [r_ini r_sect r_opt r_indent r_added r_bad] in *. subst sb ob nb ab bb.
  assert (Same : twin (mkR ia sa oa na aa ba) (mkR ib sa oa na aa ba)) by (unfold twin; cbn [r_ini r_sect r_opt r_indent r_added r_bad]; repeat (split; [assumption || reflexivity|]); assumption).
  unfold read_line in *. cbn [r_ini r_sect r_opt r_indent r_added r_bad] in *.
  destruct (is_comment (strip x)); [injection R as <-; eexists; split; [reflexivity|exact Same]|].
  set (io := match sa with Some n => if String.eqb oa "" then None else Some n | None => None end) in *.
  assert (Hio : forall n, io = Some n -> sa = Some n /\ oa <> "").
  { intros n. unfold io. destruct sa as [n'|]; [|discriminate]. destruct (String.eqb_spec oa ""); [discriminate|]. intros H. injection H as ->. split; [reflexivity|assumption]. }
  clearbody io.
  (* a line more of the current option *)
  assert (More : forall n t, io = Some n ->
    (exists l, assoc oa (cursect ib n) = Some (ILines l) /\ forall la, assoc oa (cursect ia n) = Some (ILines la) ->
       twin (mkR (w_cursect ia n (dict_set oa (ILines (la ++ [t])) (cursect ia n))) sa oa na aa ba)
            (mkR (w_cursect ib n (dict_set oa (ILines (l ++ [t])) (cursect ib n))) sa oa na aa ba)) \/
    (assoc n (i_sections ia) <> None /\ cursect ia n = cursect ib n)).
  { intros n t Hn. destruct (Hio n Hn) as [-> Ho]. destruct (assoc n (i_sections ia)) as [os|] eqn:A.
    - right. split; [discriminate|]. unfold cursect. rewrite <- T1, A. reflexivity.
    - left. destruct (T7 n eq_refl Ho A) as (l & El). exists l. split; [unfold cursect; rewrite <- T1, A; exact El|].
      intros la _. apply twin_write; [exact T1|reflexivity|eauto|]. intros os Hos. congruence. }
  assert (MoreIn : forall n t la, io = Some n -> cursect ia n = cursect ib n -> assoc n (i_sections ia) <> None ->
       twin (mkR (w_cursect ia n (dict_set oa (ILines (la ++ [t])) (cursect ia n))) sa oa na aa ba)
            (mkR (w_cursect ib n (dict_set oa (ILines (la ++ [t])) (cursect ib n))) sa oa na aa ba)).
  { intros n t la Hn _ _. destruct (Hio n Hn) as [-> _]. apply twin_write; [exact T1|reflexivity|eauto|reflexivity]. }
  destruct (String.eqb (strip x) "").
  { destruct io as [n|]; [|injection R as <-; eexists; split; [reflexivity|exact Same]].
    destruct (More n "" eq_refl) as [(l & El & W)|(An & Ec)].
    - rewrite El. destruct (assoc oa (cursect ia n)) as [[s|la|]|] eqn:Ea; injection R as <-.
      2:{ eexists. split; [reflexivity|apply W; reflexivity]. }
      all: eexists; (split; [reflexivity|]); destruct (Hio n eq_refl) as [-> Ho]; unfold twin, w_cursect, cursect in *; rewrite <- T1 in *;
        destruct (assoc n (i_sections ia)) as [os|] eqn:A; cbn [r_ini r_sect r_opt r_indent r_added r_bad i_sections i_defaults] in *; [congruence|];
        repeat (split; [reflexivity || assumption|]); intros _ _ _ _; eexists; rewrite assoc_dict_set, String.eqb_refl; reflexivity.
    - rewrite <- Ec. destruct (assoc oa (cursect ia n)) as [[s|la|]|] eqn:Ea; injection R as <-; (eexists; split; [reflexivity|]); try exact Same.
      rewrite Ec at 2. apply MoreIn; [reflexivity|exact Ec|exact An]. }
  assert (Fresh : forall F, F = (match section_header (strip x) with
      | Some h => if has_key h (i_sections ia) then inr EDuplicate
          else if String.eqb h "DEFAULT" then inl (mkR ia (Some h) "" (indent_of x) aa ba)
          else inl (mkR (mkIni (i_sections ia ++ [(h, [])]) (i_defaults ia)) (Some h) "" (indent_of x) aa ba)
      | None => match sa with None => inr EParsing
          | Some n => match option_line false (strip x) with
              | Some (o, v) => if existsb (pair_eqb (n, lower (rstrip o))) aa then inr EDuplicate
                  else inl (mkR (w_cursect ia n (dict_set (lower (rstrip o)) (match v with Some v => ILines [v] | None => INone end) (cursect ia n)))
                                (Some n) (lower (rstrip o)) (indent_of x) ((n, lower (rstrip o)) :: aa) (ba || String.eqb o ""))
              | None => inl (mkR ia (Some n) oa (indent_of x) aa true) end end end : rstate + ini_error) -> F = inl a' ->
    exists b', (match section_header (strip x) with
      | Some h => if has_key h (i_sections ib) then inr EDuplicate
          else if String.eqb h "DEFAULT" then inl (mkR ib (Some h) "" (indent_of x) aa ba)
          else inl (mkR (mkIni (i_sections ib ++ [(h, [])]) (i_defaults ib)) (Some h) "" (indent_of x) aa ba)
      | None => match sa with None => inr EParsing
          | Some n => match option_line true (strip x) with
              | Some (o, v) => if existsb (pair_eqb (n, lower (rstrip o))) aa then inr EDuplicate
                  else inl (mkR (w_cursect ib n (dict_set (lower (rstrip o)) (match v with Some v => ILines [v] | None => INone end) (cursect ib n)))
                                (Some n) (lower (rstrip o)) (indent_of x) ((n, lower (rstrip o)) :: aa) (ba || String.eqb o ""))
              | None => inl (mkR ib (Some n) oa (indent_of x) aa true) end end end : rstate + ini_error) = inl b' /\ twin a' b').
  { intros F -> RF. rewrite <- T1. destruct (section_header (strip x)) as [h|].
    - destruct (has_key h (i_sections ia)); [discriminate|]. destruct (String.eqb h "DEFAULT"); injection RF as <-; (eexists; split; [reflexivity|]);
        unfold twin; cbn [r_ini r_sect r_opt r_indent r_added r_bad i_sections i_defaults]; repeat (split; [reflexivity || assumption || (rewrite T1; reflexivity)|]); intros ? _ C; congruence.
    - destruct sa as [n|]; [|discriminate]. destruct (option_line false (strip x)) as [[o v]|] eqn:O.
      + apply option_line_true in O. destruct O as (-> & y & ->). destruct (existsb _ aa); [discriminate|]. injection RF as <-. eexists. split; [reflexivity|].
        apply twin_write; [exact T1|reflexivity|eauto|reflexivity].
      + injection RF as <-. discriminate B. }
  destruct io as [n|]; [|eapply Fresh; [reflexivity|exact R]].
  destruct (na <? indent_of x)%nat; [|eapply Fresh; [reflexivity|exact R]].
  destruct (More n (strip x) eq_refl) as [(l & El & W)|(An & Ec)].
  - rewrite El. destruct (assoc oa (cursect ia n)) as [[s|la|]|] eqn:Ea; try discriminate R. injection R as <-. eexists. split; [reflexivity|apply W; reflexivity].
  - rewrite <- Ec. destruct (assoc oa (cursect ia n)) as [[s|la|]|] eqn:Ea; try discriminate R. injection R as <-. eexists. split; [reflexivity|].
    rewrite Ec at 2. apply MoreIn; [reflexivity|exact Ec|exact An].
Qed.
Lemma bad_line nv a x a' : read_line nv a x = inl a' -> r_bad a = true -> r_bad a' = true.
Proof.
  unfold read_line. intros R B. repeat match goal with H : context [match ?e with _ => _ end] |- _ => lazymatch type of H with _ = _ => destruct e eqn:?; try discriminate H end end;
    injection R as <-; cbn [r_bad]; rewrite ?B; try assumption; reflexivity.
Qed.
Lemma bad_lines nv l : forall a a', read_lines nv a l = inl a' -> r_bad a = true -> r_bad a' = true.
Proof.
  induction l as [|x l IH]; intros a a' R B; [injection R as <-; exact B|]. cbn [read_lines] in R.
  destruct (read_line nv a x) as [a1|] eqn:E; [|discriminate]. eapply IH; [exact R|]. eapply bad_line; eassumption.
Qed.
Lemma twin_lines l : forall a b a', twin a b -> read_lines false a l = inl a' -> r_bad a' = false -> exists b', read_lines true b l = inl b' /\ twin a' b'.
Proof.
  induction l as [|x l IH]; intros a b a' T R B; [injection R as <-; eexists; split; [reflexivity|exact T]|]. cbn [read_lines] in *.
  destruct (read_line false a x) as [a1|] eqn:E; [|discriminate].
  assert (B1 : r_bad a1 = false) by (destruct (r_bad a1) eqn:X; [|reflexivity]; rewrite (bad_lines _ _ _ _ R X) in B; discriminate).
  destruct (twin_line a b x a1 T E B1) as (b1 & Eb & T1). rewrite Eb. eapply IH; eassumption.
Qed.
Lemma found_readable cpus t : probe_of_text t = PrSection -> exists s, cfg_of_text cpus t = CfgSection s.
Proof.
  unfold probe_of_text, cfg_of_text, ini_read. set (l := readlines (universal t)).
  destruct (read_lines false _ l) as [a|e] eqn:R; [|destruct e; discriminate]. destruct (r_bad a) eqn:B; [discriminate|].
  set (b0 := mkR (mkIni [] (map (fun p => (fst p, IText (snd p))) (default_args cpus))) None "" 0 [] false).
  destruct (twin_lines l (mkR (mkIni [] []) None "" 0 [] false) b0 a) as (b & Rb & T); [|exact R|exact B|].
  - unfold twin. cbn. repeat (split; [reflexivity|]). discriminate.
  - rewrite Rb. destruct T as (T1 & _ & _ & _ & _ & T6 & _). rewrite <- T6, B, <- T1. destruct (has_key "vermin" _); [eauto|discriminate].
Qed.
