(** C78: the work of an analysis. *)
From Verif Require Import PyBase PyLemmas Utility RulesData Rules Config Formats Paths AstKinds Ast State Visitor
  Spec_Base Spec_Visitor Spec_Work Proof_Runs Proof_Work Trees_Work.

(** As many nodes are visited as there are, counted twice for each [finally] block and each class they stand in. *)
Theorem c78_work : forall e v s, c_verbose (e_cfg e) <= 0 -> tour e v = Ok s ->
  (dumped s <= passes v)%nat /\ (dumped s <= 2 ^ nested v * nodes v)%nat.
Proof.
  intros e v s Q E. pose proof (tour_adds e Q v s E). pose proof (passes_nested v). lia.
Qed.
Print Assumptions c78_work.

(** So a program without classes and [finally] is gone through at most once. *)
Theorem c78_once : forall e v s, c_verbose (e_cfg e) <= 0 -> nested v = 0%nat -> tour e v = Ok s -> (dumped s <= nodes v)%nat.
Proof. intros e v s Q N E. pose proof (tour_adds e Q v s E). pose proof (nested_none v N). lia. Qed.
Print Assumptions c78_once.

(** In general the work is not bounded by the size of the program: it doubles with every [finally] in a [finally]. Here
    the program has [2 * n + 2] nodes. (CPython's tokenizer takes up to 99 levels of indentation.) *)
Definition dump_config : config := w_print_visits true (default_config 1).
Definition dump_env : env := mkEnv dump_config "a.py" None [] (fun _ _ => Ok false) (fun _ => "").

Lemma nodes_finally n : forall u l c, nodes (finally_in_finally n u l c) = (2 * n + 1)%nat.
Proof.
  induction n as [|n IH]; intros u l c; [reflexivity|]. cbn [finally_in_finally nodes map snd list_sum fold_right]. rewrite IH. cbn. lia.
Qed.
Lemma visit_finally n : forall u l c s, exists s', visit dump_env (finally_in_finally n u l c) s = Ok s' /\ dumped s' = (dumped s + (2 ^ n - 1))%nat /\
  s_user_defs s' = s_user_defs s.
Proof.
  assert (P1 : forall n, (1 <= 2 ^ n)%nat) by (intros m; apply Nat.neq_0_lt_0, Nat.pow_nonzero; discriminate).
  induction n as [|n IH]; intros u l c s; [exists s; split; [reflexivity|split; [cbn; lia|reflexivity]]|].
  set (x := finally_in_finally n (u + 2)%N (l + 3) (c + 2)).
  change (exists s',
    (upd (fun s => u_try_finally (s_try_finally s ++ [(s_seen_for s, s_seen_while s)]) s) >> ((visit dump_env x >> nop) >>
      (upd (fun s => u_try_finally (removelast (s_try_finally s)) s) >>
       (upd (u_line l) >> (upd (fun s => u_depth (s_depth s + 1) s) >>
         (upd (fun s => u_out (s_out s ++ [srepeat "| " (Z.to_nat (s_depth s)) +++ ""]) s) >>
          (((nop >> nop) >> (nop >> (nop >> ((visit dump_env x >> nop) >> nop)))) >>
           upd (fun s => u_depth (s_depth s - 1) s)))))))) s = Ok s' /\ dumped s' = (dumped s + (2 ^ S n - 1))%nat /\
    s_user_defs s' = s_user_defs s).
  unfold seq, upd, nop.
  match goal with |- context [visit dump_env x ?t] => destruct (IH (u + 2)%N (l + 3) (c + 2) t) as (s1 & E1 & D1 & U1) end. fold x in E1. rewrite E1.
  match goal with |- context [visit dump_env x ?t] => destruct (IH (u + 2)%N (l + 3) (c + 2) t) as (s2 & E2 & D2 & U2) end. fold x in E2. rewrite E2.
  eexists. split; [reflexivity|]. unfold dumped in *. cbn [s_out u_out u_depth u_line u_try_finally s_user_defs] in *. split; [|congruence].
  rewrite D2, app_length, D1, Nat.pow_succ_r'. specialize (P1 n). cbn. lia.
Qed.
Theorem c78_linear_refuted : forall n, exists v s, nodes v = (2 * n + 2)%nat /\ dumping (e_cfg dump_env) /\ tour dump_env v = Ok s /\
  dumped s = (2 ^ n)%nat.
Proof.
  intros n. exists (module_of [finally_in_finally n 1%N 1 0]).
  destruct (visit_finally n 1%N 1 0 (u_out [srepeat "| " 1 +++ ""] (u_depth 1 init_st))) as (s1 & E1 & D1 & U1).
  set (x := finally_in_finally n 1%N 1 0) in *.
  exists (u_depth (s_depth s1 - 1) s1). split; [|split; [repeat split; vm_compute; discriminate|split]].
  - unfold module_of, x. cbn [nodes map snd list_sum fold_right]. rewrite nodes_finally. lia.
  - change (tour dump_env (module_of [x])) with
      (((((visit dump_env x >> nop) >> (nop >> nop)) >> upd (fun s => u_depth (s_depth s - 1) s)) >> after_visit_all dump_env)
        (u_out [srepeat "| " 1 +++ ""] (u_depth 1 init_st))).
    unfold seq, nop. rewrite E1. unfold upd. unfold after_visit_all, rd. cbn [s_user_defs u_depth]. rewrite U1. reflexivity.
  - unfold dumped in *. cbn [s_out u_depth u_out] in *. rewrite D1. pose proof (Nat.pow_nonzero 2 n). cbn [List.length]. lia.
Qed.
Print Assumptions c78_linear_refuted.

(** Source: a class with a function that has a class and a [try] in it, whose [finally] has a [try] with a [finally]. *)
Example c78_case : exists s, c_verbose (e_cfg dump_env) <= 0 /\ tour dump_env tree_work = Ok s /\
  (nodes tree_work, nested tree_work, passes tree_work, dumped s) = (22%nat, 3%nat, 84%nat, 40%nat).
Proof.
  exists (match tour dump_env tree_work with Ok s => s | _ => init_st end). split; [vm_compute; discriminate|]. split; vm_compute; reflexivity.
Qed.
(** Source: a function with a [for] loop, a [with] and a comprehension. *)
Example c78_once_case : exists s, nested tree_no_work = 0%nat /\ tour dump_env tree_no_work = Ok s /\ (nodes tree_no_work, dumped s) = (27%nat, 11%nat).
Proof.
  exists (match tour dump_env tree_no_work with Ok s => s | _ => init_st end). split; [vm_compute; reflexivity|]. split; vm_compute; reflexivity.
Qed.
