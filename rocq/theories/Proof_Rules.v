(** Proofs about the rule tables and backports (C13-C15). *)
From Coq Require Import Sorted.
From Verif Require Import Proof_Strings PyBase PyLemmas Utility RulesData Rules Spec_Base Spec_Utility Proof_Utility Spec_Rules.

(** ** C13: the values a rule expression can take *)
Fixpoint leaves (r : reqx) : list mins :=
  match r with
  | RConst m => [m]
  | RBpv n d => d :: map bp_mins (expand_versions n)
  | RIfNot _ a b => leaves a ++ leaves b
  end.

Lemma bpv_loop_leaf : forall l d bps, In (bpv_loop l d bps) (d :: map bp_mins l).
Proof.
  induction l as [|e l IH]; simpl; intros d bps; auto.
  destruct (bp (bp_name e) bps); auto. destruct (IH d bps); auto.
Qed.

Lemma req_eval_leaf : forall bps r, In (req_eval bps r) (leaves r).
Proof.
  induction r as [m|n d|n a IHa b IHb]; cbn [req_eval leaves].
  - simpl; auto.
  - apply bpv_loop_leaf.
  - apply in_app_iff. destruct (negb (bp n bps)); auto.
Qed.

Definition wf_partb (n : Z) (o : option ver) : bool :=
  match o with
  | None => true
  | Some v => veqb v (0, 0) || ((fst v =? n) && (0 <=? snd v))
  end.
Definition wf_minsb (m : mins) : bool :=
  wf_partb 2 (fst m) && wf_partb 3 (snd m) &&
  match m with
  | (None, None) => false
  | (None, Some v) => negb (veqb v (0, 0))
  | (Some v, None) => negb (veqb v (0, 0))
  | _ => true
  end.

Lemma wf_partb_ok : forall n o, wf_partb n o = true -> wf_part n o.
Proof.
  intros n [v|]; simpl; auto. intros H. apply orb_prop in H. destruct H as [H|H].
  - left. apply veqb_eq; auto.
  - right. apply andb_prop in H. destruct H as [H1 H2]. apply Z.eqb_eq in H1. apply Z.leb_le in H2. auto.
Qed.
Lemma wf_minsb_ok : forall m, wf_minsb m = true -> wf_mins m.
Proof.
  intros m H. unfold wf_minsb in H. apply andb_prop in H. destruct H as [H H3]. apply andb_prop in H.
  destruct H as [H1 H2]. assert (N : forall v, negb (veqb v (0, 0)) = true -> names_version (Some v)).
  { intros v K. exists v. split; auto. intros ->. discriminate. }
  destruct m as [[v|] [w|]]; try discriminate; repeat split; try (apply wf_partb_ok; auto);
    simpl; try discriminate; auto.
Qed.

Definition table_ok {K} (l : list (K * reqx)) : bool :=
  forallb (fun kr => forallb wf_minsb (leaves (snd kr))) l.
Lemma table_ok_wf : forall {K} (l : list (K * reqx)) bps m, table_ok l = true ->
  In m (table_reqs bps l) -> wf_mins m.
Proof.
  intros K l bps m H Hm. apply in_map_iff in Hm. destruct Hm as [kr [<- Hk]].
  unfold table_ok in H. rewrite forallb_forall in H. specialize (H kr Hk).
  rewrite forallb_forall in H. apply wf_minsb_ok. apply H. apply req_eval_leaf.
Qed.

Definition const_ok {K} (l : list (K * mins)) : bool := forallb (fun kr => wf_minsb (snd kr)) l.
Lemma const_ok_wf : forall {K} (l : list (K * mins)) m, const_ok l = true -> In m (map snd l) -> wf_mins m.
Proof.
  intros K l m H Hm. apply in_map_iff in Hm. destruct Hm as [kr [<- Hk]].
  unfold const_ok in H. rewrite forallb_forall in H. apply wf_minsb_ok. apply H; auto.
Qed.

Lemma mod_reqs_ok : table_ok mod_reqs_x = true. Proof. vm_compute. reflexivity. Qed.
Lemma mem_reqs_ok : table_ok mod_mem_reqs_x = true. Proof. vm_compute. reflexivity. Qed.
Lemma kwargs_reqs_ok : table_ok kwargs_reqs_x = true. Proof. vm_compute. reflexivity. Qed.

(** Distinctness by computation. *)
Fixpoint nodupb {A} (eqb : A -> A -> bool) (l : list A) : bool :=
  match l with [] => true | x :: r => negb (existsb (eqb x) r) && nodupb eqb r end.
Lemma nodupb_ok : forall {A} (eqb : A -> A -> bool) l, (forall x, eqb x x = true) ->
  nodupb eqb l = true -> NoDup l.
Proof.
  induction l as [|x l IH]; simpl; intros R H; constructor.
  - apply andb_prop in H. destruct H as [H _]. apply negb_true_iff in H. intros K.
    rewrite <- not_true_iff_false in H. apply H. apply existsb_exists. exists x; auto.
  - apply andb_prop in H. apply IH; tauto.
Qed.
Definition pair_eqb (a b : string * string) : bool :=
  String.eqb (snd a) (snd b) && String.eqb (fst a) (fst b).
Lemma pair_eqb_refl : forall x, pair_eqb x x = true.
Proof. intros. unfold pair_eqb. rewrite !String.eqb_refl. auto. Qed.

Lemma mod_keys_nodup : NoDup (map fst mod_reqs_x).
Proof. apply (nodupb_ok String.eqb); [apply String.eqb_refl | vm_compute; reflexivity]. Qed.
Lemma mem_keys_nodup : NoDup (map fst mod_mem_reqs_x).
Proof. apply (nodupb_ok String.eqb); [apply String.eqb_refl | vm_compute; reflexivity]. Qed.
Lemma kwargs_keys_nodup : NoDup (map fst kwargs_reqs_x).
Proof. apply (nodupb_ok pair_eqb); [apply pair_eqb_refl | vm_compute; reflexivity]. Qed.
Lemma small_keys_nodup :
  NoDup (map fst strftime_reqs) /\ NoDup (map fst bytes_reqs) /\ NoDup (map fst array_typecode_reqs) /\
  NoDup (map fst codecs_error_handlers_reqs) /\ NoDup (map fst decorator_user_functions) /\
  NoDup (flat_map (fun kv => enc_names (fst kv)) codecs_encodings_reqs) /\
  NoDup (map bp_name backports_table) /\ NoDup (map fst features_table).
Proof.
  repeat split; (apply (nodupb_ok String.eqb); [apply String.eqb_refl | vm_compute; reflexivity]).
Qed.
Lemma small_tables_wf : forall m,
  In m (map snd strftime_reqs ++ map snd bytes_reqs ++ map snd array_typecode_reqs ++
        map snd codecs_error_handlers_reqs ++ map snd decorator_user_functions ++
        map snd codecs_encodings_reqs ++ map bp_mins backports_table) -> wf_mins m.
Proof.
  intros m H. apply wf_minsb_ok. revert m H. apply forallb_forall. vm_compute. reflexivity.
Qed.

(** The names used by rule expressions are known backports. *)
Fixpoint reqx_names (r : reqx) : list string :=
  match r with
  | RConst _ => []
  | RBpv n _ => [n]
  | RIfNot n a b => n :: reqx_names a ++ reqx_names b
  end.
Lemma rule_names_known : forall n,
  In n (flat_map (fun kr => reqx_names (snd kr)) mod_reqs_x ++
        flat_map (fun kr => reqx_names (snd kr)) mod_mem_reqs_x ++
        flat_map (fun kr => reqx_names (snd kr)) kwargs_reqs_x) -> is_backport n = true.
Proof. apply forallb_forall. vm_compute. reflexivity. Qed.

(** ** C14 *)
Lemma bpv_loop_first : forall l d bps,
  (exists a e b, l = a ++ e :: b /\ In (bp_name e) bps /\ bpv_loop l d bps = bp_mins e /\
     (forall x, In x a -> ~ In (bp_name x) bps)) \/
  (bpv_loop l d bps = d /\ forall x, In x l -> ~ In (bp_name x) bps).
Proof.
  induction l as [|e l IH]; intros d bps; simpl.
  - right. split; auto.
  - unfold bp. destruct (mem (bp_name e) bps) eqn:E.
    + left. exists [], e, l. apply mem_In in E. repeat split; auto.
    + apply mem_false in E. destruct (IH d bps) as [[a [x [b [-> [H1 [H2 H3]]]]]]|[H1 H2]].
      * left. exists (e :: a), x, b. repeat split; auto. intros y [<-|Hy]; auto.
      * right. split; auto. intros y [<-|Hy]; auto.
Qed.

Lemma module_name_sall : forall n, module_name n -> sall (fun c => negb (Ascii.eqb c "=")) n = true.
Proof.
  unfold module_name. induction n as [|c n IH]; intros H; auto. rewrite sall_cons, IH.
  - destruct (Ascii.eqb_spec c "="); auto. exfalso. eapply H; [left; reflexivity | auto].
  - intros d Hd. apply H. right; auto.
Qed.

Lemma variant_plain_name : forall n s r, sall (fun c => negb (Ascii.eqb c "=")) s = true ->
  variant n s r -> n = s /\ r = Top.
Proof.
  intros n s r H V. inversion V; subst; auto. exfalso. rewrite sall_app in H. apply andb_prop in H.
  destruct H as [_ H]. discriminate.
Qed.

Lemma variant_versioned_name : forall n base v r, module_name n ->
  sall (fun c => negb (Ascii.eqb c "=")) base = true ->
  variant n (base +++ "==" +++ ver_str v) r -> n = base /\ r = At v.
Proof.
  intros n base v r M B V. apply module_name_sall in M. inversion V as [E|w E]; subst.
  - exfalso. rewrite sall_app in M. apply andb_prop in M. destruct M as [_ M]. discriminate.
  - change ("==" +++ ver_str w) with (String "=" (String "=" (ver_str w))) in E.
    change ("==" +++ ver_str v) with (String "=" (String "=" (ver_str v))) in E.
    apply (sep_split (fun c => Ascii.eqb c "=")) in E; auto. destruct E as [-> E].
    injection E as E. apply ver_str_inj in E. subst. auto.
Qed.

(** The parsed form of every backport name of the table. *)
Definition name_parts (s : string) : string * rank :=
  if String.eqb s "typing_extensions==4.0" then ("typing_extensions", At (4, 0))
  else if String.eqb s "typing_extensions==4.3" then ("typing_extensions", At (4, 3))
  else (s, Top).

Lemma table_parts : forall e, In e backports_table ->
  variant (fst (name_parts (bp_name e))) (bp_name e) (snd (name_parts (bp_name e))) /\
  version_filter (bp_name e) = fst (name_parts (bp_name e)).
Proof.
  intros e H. unfold backports_table in H. cbn [In] in H.
  decompose [or] H; subst; try tauto; (split; [|vm_compute; reflexivity]);
  try (apply variant_plain); try apply (variant_versioned "typing_extensions" (4, 0));
  try apply (variant_versioned "typing_extensions" (4, 3)).
Qed.

Lemma table_variant : forall n e r, module_name n -> In e backports_table ->
  (variant n (bp_name e) r <-> n = fst (name_parts (bp_name e)) /\ r = snd (name_parts (bp_name e))).
Proof.
  intros n e r M H. split.
  - intros V. unfold backports_table in H. cbn [In] in H.
    decompose [or] H; subst; try tauto; cbn [bp_name fst] in *;
      try (apply variant_plain_name in V; [exact V | reflexivity]).
    + apply (variant_versioned_name n "typing_extensions" (4, 0)) in V; auto.
    + apply (variant_versioned_name n "typing_extensions" (4, 3)) in V; auto.
  - intros [-> ->]. apply table_parts; auto.
Qed.

Lemma expand_In : forall n e, In e (expand_versions n) <->
  In e backports_table /\ version_filter (bp_name e) = n.
Proof.
  intros. unfold expand_versions. rewrite <- in_rev, filter_In, String.eqb_eq. tauto.
Qed.

Definition rank_leb (a b : rank) : bool :=
  match a, b with _, Top => true | Top, At _ => false | At v, At w => vleb v w end.
Lemma rank_leb_ok : forall a b, rank_leb a b = true <-> rank_le a b.
Proof. destruct a, b; simpl; try tauto; try (split; [discriminate | tauto]). apply vleb_le. Qed.

Fixpoint desc (l : list rank) : bool :=
  match l with [] => true | x :: r => forallb (fun y => rank_leb y x) r && desc r end.
Lemma desc_app : forall a e b, desc (a ++ e :: b) = true -> forall y, In y b -> rank_leb y e = true.
Proof.
  induction a as [|x a IH]; simpl; intros e b H y Hy; apply andb_prop in H; destruct H as [H1 H2].
  - rewrite forallb_forall in H1. auto.
  - eapply IH; eauto.
Qed.

Lemma expand_desc : forall n, desc (map (fun e => snd (name_parts (bp_name e))) (expand_versions n)) = true.
Proof.
  intros n. destruct (mem n (map (fun e => version_filter (bp_name e)) backports_table)) eqn:E.
  - apply mem_In in E. vm_compute in E. decompose [or] E; subst; try tauto; vm_compute; reflexivity.
  - apply mem_false in E. assert (N : expand_versions n = []).
    { unfold expand_versions. replace (filter _ backports_table) with (@nil (string * string * mins)); auto.
      symmetry. apply filter_nil_iff. intros e He. apply String.eqb_neq. intros K. apply E.
      rewrite <- K. apply (in_map (fun e => version_filter (bp_name e))); auto. }
    rewrite N. auto.
Qed.

Lemma rank_le_refl : forall r, rank_le r r.
Proof. destruct r; simpl; auto. apply ver_le_refl. Qed.

Lemma bpv_newest : forall n d bps, module_name n ->
  (exists e, newest n bps e /\ bpv n d bps = bp_mins e) \/ (none_enabled n bps /\ bpv n d bps = d).
Proof.
  intros n d bps M. unfold bpv. destruct (bpv_loop_first (expand_versions n) d bps)
    as [[a [e [b [L [H1 [H2 H3]]]]]]|[H1 H2]].
  - left. exists e. split; auto.
    assert (Ie : In e (expand_versions n)) by (rewrite L; apply in_app_iff; simpl; auto).
    apply expand_In in Ie. destruct Ie as [It If]. destruct (table_parts e It) as [V VF].
    exists (snd (name_parts (bp_name e))).
    assert (En : n = fst (name_parts (bp_name e))) by congruence.
    split; [auto|]. split; [auto|]. split; [rewrite En at 1; exact V|].
    intros e' r' I' B' V'. apply table_variant in V'; auto. destruct V' as [N' ->].
    assert (Ie' : In e' (expand_versions n)).
    { apply expand_In. split; auto. destruct (table_parts e' I'). congruence. }
    rewrite L in Ie'. apply in_app_iff in Ie'. destruct Ie' as [K|[<-|K]].
    + exfalso. eapply H3; eauto.
    + apply rank_le_refl.
    + apply rank_leb_ok.
      pose proof (expand_desc n) as D. rewrite L, map_app in D. simpl in D.
      eapply desc_app; [apply D|]. apply (in_map (fun e => snd (name_parts (bp_name e)))); auto.
  - right. split; auto. intros e r I B V. apply table_variant in V; auto. destruct V as [N _].
    apply (H2 e); auto. apply expand_In. split; auto. destruct (table_parts e I). congruence.
Qed.

Lemma bpv_local : forall n d bps bps', module_name n ->
  (forall e r, In e backports_table -> variant n (bp_name e) r -> (In (bp_name e) bps <-> In (bp_name e) bps')) ->
  bpv n d bps = bpv n d bps'.
Proof.
  intros n d bps bps' M H. unfold bpv.
  assert (K : forall e, In e (expand_versions n) -> bp (bp_name e) bps = bp (bp_name e) bps').
  { intros e He. apply expand_In in He. destruct He as [It If]. destruct (table_parts e It) as [V VF].
    assert (En : n = fst (name_parts (bp_name e))) by congruence. rewrite <- En in V.
    specialize (H e _ It V). unfold bp. destruct (mem (bp_name e) bps) eqn:E1, (mem (bp_name e) bps') eqn:E2; auto.
    - apply mem_In in E1. apply mem_false in E2. tauto.
    - apply mem_In in E2. apply mem_false in E1. tauto. }
  induction (expand_versions n) as [|e l IH]; auto. cbn [bpv_loop].
  rewrite (K e) by (simpl; auto). destruct (bp (bp_name e) bps'); auto.
  apply IH. intros; apply K; simpl; auto.
Qed.

(** ** C15 *)
Definition req_leb (a b : option ver) : bool :=
  match a, b with _, None => true | None, Some _ => false | Some x, Some y => vleb x y end.
Definition mins_leb (a b : mins) : bool := req_leb (fst a) (fst b) && req_leb (snd a) (snd b).
Lemma req_leb_ok : forall a b, req_leb a b = true -> req_le a b.
Proof. destruct a, b; simpl; auto; try discriminate. intros H. apply vleb_le in H. exact H. Qed.
Lemma mins_leb_ok : forall a b, mins_leb a b = true -> mins_le a b.
Proof.
  intros a b H. apply andb_prop in H. destruct H. split; apply req_leb_ok; auto.
Qed.

(** A rule expression whose alternatives only relax: at most one variant, below the default. *)
Definition const_of (r : reqx) : option mins := match r with RConst m => Some m | _ => None end.
Definition relaxing (r : reqx) : bool :=
  match r with
  | RConst _ => true
  | RBpv n d => match expand_versions n with
                | [] => true
                | [e] => mins_leb (bp_mins e) d
                | _ => false
                end
  | RIfNot _ a b => match const_of a, const_of b with
                    | Some x, Some y => mins_leb y x
                    | _, _ => false
                    end
  end.

Lemma relaxing_mono : forall r bps bps', relaxing r = true -> (forall b, In b bps -> In b bps') ->
  mins_le (req_eval bps' r) (req_eval bps r).
Proof.
  intros r bps bps' H I.
  assert (B : forall n, bp n bps = true -> bp n bps' = true).
  { unfold bp. intros n K. apply mem_In. apply mem_In in K. auto. }
  destruct r as [m|n d|n a b]; cbn [req_eval relaxing] in *.
  - apply mins_le_refl.
  - unfold bpv. destruct (expand_versions n) as [|e [|e2 l]]; try discriminate.
    + apply mins_le_refl.
    + cbn [bpv_loop]. destruct (bp (bp_name e) bps) eqn:E.
      * rewrite (B _ E). apply mins_le_refl.
      * destruct (bp (bp_name e) bps'); [apply mins_leb_ok; auto | apply mins_le_refl].
  - destruct a as [x| |]; try discriminate. destruct b as [y| |]; try discriminate.
    cbn [const_of req_eval] in *. destruct (bp n bps) eqn:E; cbn [negb].
    + rewrite (B _ E). apply mins_le_refl.
    + destruct (bp n bps'); cbn [negb]; [apply mins_leb_ok; auto | apply mins_le_refl].
Qed.

Definition all_relaxing {K} (ok : K -> bool) (l : list (K * reqx)) : bool :=
  forallb (fun kr => ok (fst kr) || relaxing (snd kr)) l.
Lemma all_relaxing_mono : forall {K} (ok : K -> bool) (l : list (K * reqx)) k r bps bps',
  all_relaxing ok l = true -> In (k, r) l -> ok k = false -> (forall b, In b bps -> In b bps') ->
  mins_le (req_eval bps' r) (req_eval bps r).
Proof.
  intros K ok l k r bps bps' H I O S. unfold all_relaxing in H. rewrite forallb_forall in H.
  specialize (H _ I). cbn [fst snd] in H. rewrite O in H. apply relaxing_mono; auto.
Qed.

Lemma mod_relaxing : all_relaxing (String.eqb "typing_extensions") mod_reqs_x = true.
Proof. vm_compute. reflexivity. Qed.
Lemma mem_relaxing : all_relaxing (fun _ => false) mod_mem_reqs_x = true.
Proof. vm_compute. reflexivity. Qed.
Lemma kwargs_relaxing : all_relaxing (fun _ => false) kwargs_reqs_x = true.
Proof. vm_compute. reflexivity. Qed.

Lemma assoc2_In : forall {A} k (v : A) l, assoc2 k l = Some v -> In (k, v) l.
Proof.
  induction l as [|[k' v'] r IH]; simpl; intros H; try discriminate.
  destruct (String.eqb (fst k) (fst k') && String.eqb (snd k) (snd k')) eqn:E.
  - apply andb_prop in E. destruct E as [E1 E2]. apply String.eqb_eq in E1. apply String.eqb_eq in E2.
    injection H as ->. destruct k, k'; simpl in *; subst. auto.
  - auto.
Qed.

Lemma mod_req_mono : forall bps bps' m r r', m <> "typing_extensions" -> (forall b, In b bps -> In b bps') ->
  mod_req bps m = Some r -> mod_req bps' m = Some r' -> mins_le r' r.
Proof.
  unfold mod_req. intros bps bps' m r r' N I H K. destruct (assoc m mod_reqs_x) as [x|] eqn:A; [|discriminate].
  injection H as <-. injection K as <-. apply assoc_In in A.
  apply (all_relaxing_mono (String.eqb "typing_extensions") mod_reqs_x m x bps bps' mod_relaxing A); auto.
  apply String.eqb_neq. auto.
Qed.
Lemma mem_req_mono : forall bps bps' m r r', (forall b, In b bps -> In b bps') ->
  mem_req bps m = Some r -> mem_req bps' m = Some r' -> mins_le r' r.
Proof.
  unfold mem_req. intros bps bps' m r r' I H K. destruct (assoc m mod_mem_reqs_x) as [x|] eqn:A; [|discriminate].
  injection H as <-. injection K as <-. apply assoc_In in A.
  apply (all_relaxing_mono (fun _ => false) mod_mem_reqs_x m x bps bps' mem_relaxing A); auto.
Qed.
Lemma kwarg_req_mono : forall bps bps' m r r', (forall b, In b bps -> In b bps') ->
  kwarg_req bps m = Some r -> kwarg_req bps' m = Some r' -> mins_le r' r.
Proof.
  unfold kwarg_req. intros bps bps' m r r' I H K. destruct (assoc2 m kwargs_reqs_x) as [x|] eqn:A; [|discriminate].
  injection H as <-. injection K as <-. apply assoc2_In in A.
  apply (all_relaxing_mono (fun _ => false) kwargs_reqs_x m x bps bps' kwargs_relaxing A); auto.
Qed.

Lemma mod_req_wf : forall bps m r, mod_req bps m = Some r -> wf_mins r.
Proof.
  unfold mod_req. intros bps m r H. destruct (assoc m mod_reqs_x) as [x|] eqn:A; [|discriminate].
  injection H as <-. apply assoc_In in A.
  apply (table_ok_wf mod_reqs_x bps); [apply mod_reqs_ok|].
  apply (in_map (fun kr => req_eval bps (snd kr)) _ _ A).
Qed.
Lemma mem_req_wf : forall bps m r, mem_req bps m = Some r -> wf_mins r.
Proof.
  unfold mem_req. intros bps m r H. destruct (assoc m mod_mem_reqs_x) as [x|] eqn:A; [|discriminate].
  injection H as <-. apply assoc_In in A.
  apply (table_ok_wf mod_mem_reqs_x bps); [apply mem_reqs_ok|].
  apply (in_map (fun kr => req_eval bps (snd kr)) _ _ A).
Qed.
Lemma kwarg_req_wf : forall bps m r, kwarg_req bps m = Some r -> wf_mins r.
Proof.
  unfold kwarg_req. intros bps m r H. destruct (assoc2 m kwargs_reqs_x) as [x|] eqn:A; [|discriminate].
  injection H as <-. apply assoc2_In in A.
  apply (table_ok_wf kwargs_reqs_x bps); [apply kwargs_reqs_ok|].
  apply (in_map (fun kr => req_eval bps (snd kr)) _ _ A).
Qed.

(** ** Names of versioned backports *)
Lemma is_word_dot_iff c : is_word_dot c = true <-> name_char c.
Proof.
  unfold is_word_dot, is_word, is_digit, name_char. rewrite !orb_true_iff, !andb_true_iff, !Z.leb_le, Ascii.eqb_eq, Z.eqb_eq.
  assert (U : code c = 95 <-> c = "_"%char).
  { split; [|intros ->; reflexivity]. unfold code. intros H. rewrite <- (ascii_N_embedding c).
    replace (N_of_ascii c) with 95%N by lia. reflexivity. }
  rewrite U. tauto.
Qed.
Lemma span_prefix f n b : (forall c, In c (list_ascii_of_string n) -> f c = true) -> (forall c r, b = String c r -> f c = false) ->
  span f (n +++ b) = (n, b).
Proof.
  intros H B. induction n as [|c n IH].
  - cbn. destruct b as [|c r]; [reflexivity|]. cbn. rewrite (B c r eq_refl). reflexivity.
  - change (String c n +++ b) with (String c (n +++ b)). cbn [span]. rewrite (H c (or_introl eq_refl)).
    rewrite IH; [reflexivity|]. intros d I. apply H. right. exact I.
Qed.
Lemma span_parts f s a b : span f s = (a, b) -> s = a +++ b /\ forall c, In c (list_ascii_of_string a) -> f c = true.
Proof.
  revert a b. induction s as [|c r IH]; intros a b; cbn [span].
  - intros E. injection E as <- <-. split; [reflexivity|intros c []].
  - destruct (f c) eqn:F.
    + destruct (span f r) as [a' b']. intros E. injection E as <- <-. destruct (IH a' b' eq_refl) as [-> H]. split; [reflexivity|].
      intros d [->|I]; [exact F|exact (H d I)].
    + intros E. injection E as <- <-. split; [reflexivity|intros d []].
Qed.
Lemma version_filter_spec m : (forall n, versioned m n -> version_filter m = n) /\ ((forall n, ~ versioned m n) -> version_filter m = m).
Proof.
  unfold version_filter. split.
  - intros n (N & W & c & r & -> & L).
    rewrite (span_prefix is_word_dot n ("==" +++ String c r)); [|intros d I; apply is_word_dot_iff, W, I|intros d q E; injection E as <- _; reflexivity].
    assert ((n =? "")%string = false) as -> by (apply String.eqb_neq; exact N).
    change (startswith "==" ("==" +++ String c r)) with true. change (sdrop 2 ("==" +++ String c r)) with (String c r).
    cbn [upto_newline]. destruct (Ascii.eqb c (ascii_of_nat 10)) eqn:Q; [apply Ascii.eqb_eq in Q; contradiction|]. reflexivity.
  - intros H. destruct (span is_word_dot m) as [a b] eqn:S. apply span_parts in S as [-> W].
    destruct (negb (a =? "")%string && startswith "==" b && negb (upto_newline (sdrop 2 b) =? "")%string) eqn:Q; [|reflexivity].
    exfalso. apply andb_prop in Q as [Q Q3]. apply andb_prop in Q as [Q1 Q2]. apply (H a). split; [|split].
    + intros ->. discriminate.
    + intros c I. apply is_word_dot_iff, W, I.
    + apply Proof_Strings.startswith_iff in Q2 as ([|c r] & ->); [discriminate|]. exists c, r. split; [reflexivity|]. intros ->. discriminate.
Qed.

(** ** C14: whole rules *)
Lemma rank_antisym : forall n x y a b, variant n x a -> variant n y b -> rank_le a b -> rank_le b a -> x = y.
Proof.
  intros n x y a b [|v] [|w] L R; simpl in *; try contradiction; auto.
  replace w with v; auto. destruct v as [v1 v2], w as [w1 w2]. unfold ver_le in *. simpl in *. f_equal; lia.
Qed.

Lemma newest_unique : forall n bps e e', newest n bps e -> newest n bps e' -> e = e'.
Proof.
  intros n bps e e' [r [I [E [V M]]]] [r' [I' [E' [V' M']]]].
  assert (N : bp_name e = bp_name e').
  { apply (rank_antisym n _ _ r r'); eauto. }
  destruct small_keys_nodup as [_ [_ [_ [_ [_ [_ [D _]]]]]]].
  clear - I I' N D. induction backports_table as [|x l IH]; [destruct I|].
  cbn [map] in D. inversion D; subst.
  destruct I as [->|I], I' as [->|I']; auto.
  - exfalso. apply H1. rewrite N. apply in_map. auto.
  - exfalso. apply H1. rewrite <- N. apply in_map. auto.
Qed.

Lemma newest_enabled : forall n bps e, newest n bps e -> ~ none_enabled n bps.
Proof. intros n bps e [r [I [E [V _]]]] N. apply (N e r I E V). Qed.

(** Names in the rules contain no "=". *)
Fixpoint plainb (s : string) : bool :=
  match s with "" => true | String c r => negb (Ascii.eqb c "="%char) && plainb r end.
Lemma plainb_ok : forall s, plainb s = true -> module_name s.
Proof.
  unfold module_name. induction s as [|a s IH]; simpl; intros H c [].
  - subst. apply andb_true_iff in H. destruct H as [H _]. intros ->. discriminate.
  - apply andb_true_iff in H. destruct H. apply IH; auto.
Qed.
Fixpoint plain_names (r : reqx) : bool :=
  match r with
  | RConst _ => true
  | RBpv n _ => plainb n
  | RIfNot _ a b => plain_names a && plain_names b
  end.

Lemma worth_iff : forall bps r m, plain_names r = true -> (worth bps r m <-> req_eval bps r = m).
Proof.
  induction r as [m0|n d|n a IHa b IHb]; intros m P; cbn [req_eval plain_names] in *.
  - split; [intros H; inversion H; auto|intros ->; constructor].
  - apply plainb_ok in P. destruct (bpv_newest n d bps P) as [[e [N ->]]|[N ->]]; split; intros H.
    + inversion H; subst; [f_equal; eapply newest_unique; eauto|exfalso; eapply newest_enabled; eauto].
    + subst. constructor. auto.
    + inversion H; subst; [exfalso; eapply newest_enabled; eauto|auto].
    + subst. constructor. auto.
  - apply andb_true_iff in P. destruct P as [Pa Pb]. unfold bp.
    destruct (mem n bps) eqn:E; cbn [negb].
    + apply mem_In in E. rewrite <- IHb by auto.
      split; intros H; [inversion H; subst; auto; contradiction|apply worth_with; auto].
    + assert (Nn : ~ In n bps) by (intros I; apply mem_In in I; congruence).
      rewrite <- IHa by auto.
      split; intros H; [inversion H; subst; auto; contradiction|apply worth_without; auto].
Qed.

Lemma rules_plain :
  forallb (fun kr => plain_names (snd kr)) mod_reqs_x = true /\
  forallb (fun kr => plain_names (snd kr)) mod_mem_reqs_x = true /\
  forallb (fun kr => plain_names (snd kr)) kwargs_reqs_x = true.
Proof. vm_compute. auto. Qed.

Lemma assoc_unique : forall (A : Type) (l : list (string * A)) k v, NoDup (map fst l) ->
  (assoc k l = Some v <-> In (k, v) l).
Proof.
  induction l as [|[k' v'] l IH]; intros k v D; simpl; [split; [discriminate|tauto]|].
  cbn [map fst] in D. inversion D; subst. destruct (String.eqb_spec k k').
  - subst. split; [intros H; injection H as ->; auto|].
    intros [H|H]; [congruence|]. exfalso. apply H1. apply (in_map fst) in H. exact H.
  - rewrite (IH k v H2). split; auto. intros [H|H]; [congruence|auto].
Qed.
Lemma assoc2_unique : forall (A : Type) (l : list ((string * string) * A)) k v, NoDup (map fst l) ->
  (assoc2 k l = Some v <-> In (k, v) l).
Proof.
  induction l as [|[k' v'] l IH]; intros k v D; cbn [assoc2 In]; [split; [discriminate|tauto]|].
  cbn [map fst] in D. inversion D; subst.
  destruct (String.eqb_spec (fst k) (fst k')), (String.eqb_spec (snd k) (snd k')); cbn [andb].
  - assert (k = k') by (destruct k, k'; simpl in *; congruence). subst.
    split; [intros H; injection H as ->; auto|].
    intros [H|H]; [congruence|]. exfalso. apply H1. apply (in_map fst) in H. exact H.
  - rewrite (IH k v H2). split; auto. intros [H|H]; [congruence|auto].
  - rewrite (IH k v H2). split; auto. intros [H|H]; [congruence|auto].
  - rewrite (IH k v H2). split; auto. intros [H|H]; [congruence|auto].
Qed.

Lemma rule_worth : forall (K : Type) (l : list (K * reqx)) look bps (k : K) m,
  (forall v, look = Some v <-> In (k, v) l) -> forallb (fun kr => plain_names (snd kr)) l = true ->
  (option_map (req_eval bps) look = Some m <-> exists r, In (k, r) l /\ worth bps r m).
Proof.
  intros K l look bps k m A P. rewrite forallb_forall in P. split.
  - destruct look as [r|]; [|discriminate]. intros H. injection H as <-.
    pose proof (proj1 (A r) eq_refl) as I. exists r. split; auto. apply worth_iff; auto.
    apply (P (k, r) I).
  - intros [r [I W]]. rewrite (proj2 (A r) I). cbn [option_map]. f_equal.
    apply worth_iff; auto. apply (P (k, r) I).
Qed.

Lemma rules_worth : forall bps m,
  (forall k, mod_req bps k = Some m <-> exists r, In (k, r) mod_reqs_x /\ worth bps r m) /\
  (forall k, mem_req bps k = Some m <-> exists r, In (k, r) mod_mem_reqs_x /\ worth bps r m) /\
  (forall k, kwarg_req bps k = Some m <-> exists r, In (k, r) kwargs_reqs_x /\ worth bps r m).
Proof.
  intros bps m. destruct rules_plain as [A [B C]]. split; [|split]; intros k.
  - apply rule_worth; auto. intros v. apply assoc_unique. apply mod_keys_nodup.
  - apply rule_worth; auto. intros v. apply assoc_unique. apply mem_keys_nodup.
  - apply rule_worth; auto. intros v. apply assoc2_unique. apply kwargs_keys_nodup.
Qed.
