(** Lemmas for C91: which versions can be reported. *)
From Verif Require Import PyBase PyLemmas Utility RulesData Rules Config Formats Paths AstKinds Ast State Visitor MinVersions Parser Detection
  Arguments Pool Processor Main Spec_Base Spec_Utility Spec_Rules Spec_MinVersions Spec_Main Spec_Released Proof_Utility Proof_Rules Proof_MinVersions Proof_Main.
From Coq Require Import Lia.

Definition sayb (M top : Z) (o : option ver) : bool :=
  match o with
  | None => true
  | Some (a, b) => ((a =? 0) && (b =? 0)) || ((a =? M) && (0 <=? b) && (b <=? top))
  end.
Definition saysb (m : mins) : bool := sayb 2 7 (fst m) && sayb 3 12 (snd m).

Lemma saysb_ok : forall m, saysb m = true -> sayable_mins m.
Proof.
  intros [a b] H. unfold saysb in H. apply andb_true_iff in H as [A B]. cbn [fst snd] in A, B. split; cbn [fst snd].
  - destruct a as [[x y]|]; [|constructor]. cbn [sayb] in A. apply orb_true_iff in A as [A|A].
    + apply andb_true_iff in A as [X Y]. apply Z.eqb_eq in X, Y. subst. constructor.
    + rewrite !andb_true_iff, Z.eqb_eq, !Z.leb_le in A. destruct A as [[-> A] A']. apply say_release; [constructor; lia|reflexivity].
  - destruct b as [[x y]|]; [|constructor]. cbn [sayb] in B. apply orb_true_iff in B as [B|B].
    + apply andb_true_iff in B as [X Y]. apply Z.eqb_eq in X, Y. subst. constructor.
    + rewrite !andb_true_iff, Z.eqb_eq, !Z.leb_le in B. destruct B as [[-> B] B']. apply say_release; [constructor; lia|reflexivity].
Qed.

(** ** Rules *)

Definition table_says {K} (l : list (K * reqx)) : bool := forallb (fun kr => forallb saysb (leaves (snd kr))) l.
Definition const_says {K} (l : list (K * mins)) : bool := forallb (fun kr => saysb (snd kr)) l.

Lemma mods_say : table_says mod_reqs_x = true. Proof. vm_compute. reflexivity. Qed.
Lemma mems_say : table_says mod_mem_reqs_x = true. Proof. vm_compute. reflexivity. Qed.
Lemma kwargs_say : table_says kwargs_reqs_x = true. Proof. vm_compute. reflexivity. Qed.
Lemma small_say : const_says strftime_reqs && const_says bytes_reqs && const_says array_typecode_reqs && const_says codecs_error_handlers_reqs &&
  const_says codecs_encodings_reqs && const_says decorator_user_functions = true.
Proof. vm_compute. reflexivity. Qed.

Lemma table_say : forall {K} (l : list (K * reqx)) bps k x, table_says l = true -> In (k, x) l -> sayable_mins (req_eval bps x).
Proof.
  intros K l bps k x H I. unfold table_says in H. rewrite forallb_forall in H. specialize (H _ I). cbn [snd] in H.
  rewrite forallb_forall in H. apply saysb_ok, H, req_eval_leaf.
Qed.
Lemma const_say : forall {K} (l : list (K * mins)) k m, const_says l = true -> In (k, m) l -> sayable_mins m.
Proof. intros K l k m H I. unfold const_says in H. rewrite forallb_forall in H. apply saysb_ok. exact (H _ I). Qed.

Lemma triggered_say : forall bps s m, triggered bps s m -> sayable_mins m.
Proof.
  intros bps s m H. assert (T := small_say). rewrite !andb_true_iff in T. destruct T as [[[[[T1 T2] T3] T4] T5] T6].
  destruct H as [f m I D|d m I J|d m I J|d m I J|n m I J|n k m I J E|n m I J|n m I J|f k m I J|n m I J].
  - destruct D; apply saysb_ok; reflexivity.
  - exact (const_say _ _ _ T1 J).
  - exact (const_say _ _ _ T2 J).
  - exact (const_say _ _ _ T3 J).
  - exact (const_say _ _ _ T4 J).
  - exact (const_say _ _ _ T5 J).
  - unfold mod_req in J. destruct (assoc n mod_reqs_x) as [x|] eqn:A; [|discriminate]. injection J as <-. apply assoc_In in A. exact (table_say _ _ _ _ mods_say A).
  - unfold mem_req in J. destruct (assoc n mod_mem_reqs_x) as [x|] eqn:A; [|discriminate]. injection J as <-. apply assoc_In in A. exact (table_say _ _ _ _ mems_say A).
  - unfold kwarg_req in J. destruct (assoc2 (f, k) kwargs_reqs_x) as [x|] eqn:A; [|discriminate]. injection J as <-. apply assoc2_In in A. exact (table_say _ _ _ _ kwargs_say A).
  - exact (const_say _ _ _ T6 J).
Qed.

(** ** A source *)

Lemma source_say : forall e s m s', minimum_versions e s = Ok (m, s') -> sayable_mins m.
Proof.
  intros e s m s' H. apply per_major in H as (_ & _ & A & B). destruct m as [a b]. cbn [fst snd] in *. split; cbn [fst snd].
  - destruct a as [v|]; [|constructor]. destruct (A v eq_refl) as [[->|(r & T & E)] _]; [constructor|]. rewrite <- E. exact (proj1 (triggered_say _ _ _ T)).
  - destruct b as [v|]; [|constructor]. destruct (B v eq_refl) as [[->|(r & T & E)] _]; [constructor|]. rewrite <- E. exact (proj2 (triggered_say _ _ _ T)).
Qed.

Lemma syntax_say : forall major c ps m printed, parser_detect major c ps = DVerdict m printed -> sayable_mins m.
Proof.
  intros major c ps m printed H. apply detect_verdict in H as (se & ->).
  destruct (syntax_verdict_cases major c se) as [->|[->|[->|[->|(-> & _)]]]]; apply saysb_ok; reflexivity.
Qed.

Lemma api_say : forall h major c path source p m, api_detect h major c path source p = Ok m -> sayable_mins m.
Proof.
  intros h major c path source p m H. unfold api_detect, api_visit in H. destruct (parser_detect major c p) eqn:D; cbn [bindr] in H; try discriminate H.
  1,2: first [injection H as <-; exact (syntax_say _ _ _ _ _ D)|
    destruct (make_visitor h c (api_path path) source _) as [e|]; [|discriminate H]; cbn [bindr] in H;
    destruct (tour e _) as [s|]; [|discriminate H]; cbn [bindr] in H; destruct (minimum_versions e s) as [ms|]; [|discriminate H]; cbn [bindr] in H;
    destruct (minimum_versions e (snd ms)) as [[m1 s1]|] eqn:E; [|discriminate H]; cbn [mapr fst] in H; injection H as <-; exact (source_say _ _ _ _ E)].
Qed.

(** ** A file *)

Lemma file_say : forall h major c file p how r m, snd (process_individual h major c p (file p) how) = Ok (Some r) -> r_mins r = MVers m -> sayable_mins m.
Proof.
  intros h major c file p how r m H M. destruct (result_cases h major c file p how r m H M) as [(source & ps & printed & _ & D)|[(x & _ & ->)|(source & ps & node & nov & e & s & s' & _ & _ & _ & _ & E)]].
  - exact (syntax_say _ _ _ _ _ D).
  - apply saysb_ok. reflexivity.
  - exact (source_say _ _ _ _ E).
Qed.

(** ** A run *)

Lemma opt_max_say : forall M a b, sayable M a -> sayable M b -> sayable M (opt_max a b).
Proof. intros M [a|] [b|] A B; cbn [opt_max]; try apply say_out. unfold vmax. destruct (vltb a b); assumption. Qed.

Lemma unique_say : forall M o l, sayable M o -> (forall v, In v l -> released v) -> forall v, In v (add_unique o l) -> released v.
Proof.
  intros M o l O L v I. unfold add_unique in I. destruct o as [w|]; [|auto]. destruct (vltb (0, 0) w) eqn:Z; [|auto]. destruct (vmem w l); [auto|].
  apply in_app_iff in I as [I|[<-|[]]]; [auto|]. inversion O as [|X|v R F X]; [subst; discriminate Z|exact R].
Qed.

Definition agg_says (a : agg) : Prop := sayable_mins (a_mins a) /\ forall v, In v (a_unique a) -> released v.

Lemma step_say : forall c r a a', (forall x m, r = Some x -> r_mins x = MVers m -> sayable_mins m) -> agg_step c r a = Ok a' -> agg_says a -> agg_says a'.
Proof.
  intros c r a a' R H (A & U). unfold agg_step in H. destruct r as [r|]; [|injection H as <-; split; assumption].
  destruct (r_mins r) as [| |m] eqn:M; try discriminate H; try (injection H as <-; split; assumption).
  destruct (R r m eq_refl M) as [S2 S3].
  assert (U' : forall v, In v (add_unique (snd m) (add_unique (fst m) (a_unique a))) -> released v).
  { apply (unique_say 3); [exact S3|]. apply (unique_say 2); [exact S2|exact U]. }
  cbv zeta in H. unfold combine2 in H. destruct (negb (c_ignore_incomp c) && clash (a_mins a) m).
  - injection H as <-. split; [exact A|exact U'].
  - injection H as <-. split; [|exact U']. split; cbn [a_mins fst snd]; apply opt_max_say; try assumption; apply A.
Qed.

Lemma loop_say : forall c rs a, (forall x m, In (Ok (Some x)) rs -> r_mins x = MVers m -> sayable_mins m) -> agg_says a -> agg_says (fst (agg_loop c rs a)).
Proof.
  intros c rs. induction rs as [|[r|x] rs IH]; intros a R A; cbn [agg_loop]; [exact A| |exact A].
  destruct (agg_step c r a) as [a'|] eqn:S; [|exact A]. apply IH; [intros x m I; apply R; right; exact I|].
  apply (step_say c r a a'); [|exact S|exact A]. intros x m -> M. apply (R x m); [left; reflexivity|exact M].
Qed.

Lemma init_say : agg_says agg_init.
Proof. split; [apply saysb_ok; reflexivity|intros v []]. Qed.

Lemma results_say : forall c n rs, (forall x m, In (Ok (Some x)) rs -> r_mins x = MVers m -> sayable_mins m) -> agg_says (fst (run_results c n rs)).
Proof.
  intros c n rs R. unfold run_results. destruct (n =? 1).
  - destruct (first_err rs); [exact init_say|]. apply loop_say; [exact R|exact init_say].
  - destruct (n <? 1); [exact init_say|]. apply loop_say; [exact R|exact init_say].
Qed.

Lemma process_say : forall h major c file how n paths s, snd (process h major c file how n paths) = Ok s ->
  sayable_mins (m_mins s) /\ forall v, In v (m_unique s) -> released v.
Proof.
  intros h major c file how n paths s H. unfold process in H.
  set (rs := map (fun p => snd (process_individual h major c p (file p) (how p))) paths) in H.
  assert (R : forall x m, In (Ok (Some x)) rs -> r_mins x = MVers m -> sayable_mins m).
  { intros x m I M. apply in_map_iff in I as (p & E & _). exact (file_say h major c file p (how p) x m E M). }
  assert (A := results_say c n rs R). destruct (run_results c n rs) as [a o]. cbn [fst] in A.
  assert (K : s = summary_of a).
  { destruct o as [x|]; [destruct x|]; cbn [snd] in H; try discriminate H; injection H as <-; reflexivity. }
  subst s. destruct A as [A U]. split; [exact A|]. intros v I. apply U. cbn [summary_of m_unique] in I. apply isort_In in I. exact I.
Qed.

(** The newest release of a major version is enough for everything of that major version. *)
Lemma newest : forall m v, sayable_mins m -> fst v <> 0 -> (forall r, released r -> fst r = fst v -> ver_le r v) ->
  (exists r, required m r /\ fst r = fst v /\ ver_le r v) <-> for_major m (fst v).
Proof.
  intros m v [S2 S3] Z N. split.
  - intros (r & R & F & _). exists r. split; [exact R|exact F].
  - intros (r & R & F). exists r. split; [exact R|]. split; [exact F|]. apply N; [|exact F].
    destruct R as [R|R]; rewrite R in *; [inversion S2 as [|X|w Q G X]; subst|inversion S3 as [|X|w Q G X]; subst]; try exact Q; cbn [fst] in F; congruence.
Qed.
