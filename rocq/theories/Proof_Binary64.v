(** Sort keys in binary64 order lines as the exact ones do. Lemmas for C09, C10, C50. *)
From Verif Require Import PyBase PyLemmas Utility Config Formats Binary64 Spec_Base Spec_Utility Spec_Formats Spec_Binary64 Proof_Utility.
From Coq Require Import ZArith.Znumtheory.

(** ** Rounding *)
Lemma half_even_near n d : 0 <= n -> 0 < d -> 2 * Z.abs (half_even n d * d - n) <= d /\ 0 <= half_even n d.
Proof.
  intros Hn Hd. unfold half_even. pose proof (Z.div_mod n d ltac:(lia)) as E. pose proof (Z.mod_pos_bound n d Hd) as B.
  assert (Q : 0 <= n / d) by (apply Z.div_pos; lia).
  set (q := n / d) in *. set (r := n mod d) in *. cbv zeta. destruct (Z.compare_spec (2 * r) d) as [C|C|C].
  - destruct (Z.even q); (split; [|lia]); nia.
  - split; [|lia]. nia.
  - split; [|lia]. nia.
Qed.
(** Nearer than any integer. *)
Lemma half_even_best n d k : 0 <= n -> 0 < d -> Z.abs (half_even n d * d - n) <= Z.abs (k * d - n).
Proof.
  intros Hn Hd. unfold half_even. pose proof (Z.div_mod n d ltac:(lia)) as E. pose proof (Z.mod_pos_bound n d Hd) as B.
  set (q := n / d) in *. set (r := n mod d) in *. cbv zeta.
  assert (A : k <= q \/ q + 1 <= k) by lia.
  destruct (Z.compare_spec (2 * r) d) as [C|C|C]; [destruct (Z.even q)|..]; destruct A as [A|A]; nia.
Qed.
Lemma half_even_exact k d : 0 < d -> half_even (k * d) d = k.
Proof.
  intros Hd. unfold half_even. rewrite Z.div_mul, Z.mod_mul by lia. cbv zeta. destruct (Z.compare_spec (2 * 0) d); lia.
Qed.
Definition shift64 (n d : Z) : Z := Z.max 0 (Z.log2 (n / d) - 52).
Lemma shift_small n d K : 0 <= n -> 0 < d -> 53 <= K -> n < 2 ^ K * d -> 0 <= shift64 n d <= K - 53.
Proof.
  intros Hn Hd HK H. unfold shift64. assert (Q : n / d < 2 ^ K) by (apply Z.div_lt_upper_bound; lia).
  destruct (Z.le_gt_cases (n / d) 0) as [L|L].
  - rewrite Z.log2_nonpos by lia. lia.
  - apply Z.log2_lt_pow2 in Q; lia.
Qed.
Lemma round_near n d K : 0 <= n -> 0 < d -> 53 <= K < 2098 -> n < 2 ^ K * d ->
  exists r, round64 n d = Fin r /\ 0 <= r /\ 2 * Z.abs (r * d - n) <= d * 2 ^ (K - 53).
Proof.
  intros Hn Hd HK H. destruct (shift_small n d K Hn Hd ltac:(lia) H) as [S1 S2]. unfold round64. fold (shift64 n d).
  set (s := shift64 n d) in *. assert (P : 0 < 2 ^ s) by (apply Z.pow_pos_nonneg; lia).
  destruct (half_even_near n (d * 2 ^ s) Hn ltac:(nia)) as [N N0]. set (m := half_even n (d * 2 ^ s)) in *. cbv zeta.
  assert (P2 : 2 ^ s <= 2 ^ (K - 53)) by (apply Z.pow_le_mono_r; lia).
  assert (P3 : 2 ^ (K - 53) * 2 ^ 53 = 2 ^ K) by (rewrite <- Z.pow_add_r by lia; f_equal; lia).
  assert (P4 : 2 ^ (K + 1) <= 2 ^ 2098) by (apply Z.pow_le_mono_r; lia).
  assert (P5 : 2 ^ (K + 1) = 2 * 2 ^ K) by (rewrite Z.pow_add_r by lia; lia).
  assert (Er : 2 * Z.abs (2 ^ s * m * d - n) <= d * 2 ^ (K - 53)).
  { replace (2 ^ s * m * d) with (m * (d * 2 ^ s)) by ring. eapply Z.le_trans; [exact N|]. nia. }
  assert (R : 2 ^ s * m < 2 ^ 2098).
  { change (2 ^ 53) with 9007199254740992 in P3. set (w := 2 ^ (K - 53)) in *. set (x := 2 ^ s * m) in *.
    eapply Z.lt_le_trans; [|exact P4]. rewrite P5. assert (0 < w) by (apply Z.pow_pos_nonneg; lia). clearbody x w. clear -Er H P3 Hd H0.
    rewrite <- P3 in *. nia. }
  apply Z.ltb_lt in R. rewrite R. exists (2 ^ s * m). split; [reflexivity|]. split; [nia|exact Er].
Qed.
Lemma pow_pos s : 0 <= s -> 0 < 2 ^ s.
Proof. intros. apply Z.pow_pos_nonneg; lia. Qed.
Lemma round_exact x d : 0 < d -> representable x -> x < 2 ^ 2098 -> round64 (x * d) d = Fin x.
Proof.
  intros Hd (m & e & Hm & He & ->) B. unfold round64. rewrite Z.div_mul by lia. cbv zeta.
  set (s := Z.max 0 (Z.log2 (m * 2 ^ e) - 52)).
  assert (S : 0 <= s) by lia. assert (D : exists k, m * 2 ^ e = k * 2 ^ s).
  { destruct (Z.eq_dec m 0) as [->|Nm]; [exists 0; lia|]. assert (Pe := pow_pos e He).
    assert (L : Z.log2 (m * 2 ^ e) < e + 53).
    { apply Z.log2_lt_pow2; [nia|]. rewrite Z.pow_add_r by lia. nia. }
    assert (Se : s <= e) by lia. exists (m * 2 ^ (e - s)). rewrite <- Z.mul_assoc, <- Z.pow_add_r by lia. do 2 f_equal. lia. }
  destruct D as (k & E). rewrite E. assert (Ps := pow_pos s S).
  replace (k * 2 ^ s * d) with (k * (d * 2 ^ s)) by ring. rewrite half_even_exact by nia.
  replace (2 ^ s * k) with (m * 2 ^ e) by lia. apply Z.ltb_lt in B. rewrite B. f_equal. exact E.
Qed.
Lemma round_nearest n d r : 0 <= n -> 0 < d -> round64 n d = Fin r -> nearest n d r.
Proof.
  intros Hn Hd E. unfold round64 in E. fold (shift64 n d) in E. set (s := shift64 n d) in *. cbv zeta in E.
  destruct (_ <? _); [|discriminate]. injection E as <-. assert (S : 0 <= s) by (unfold s, shift64; lia).
  assert (Ps := pow_pos s S). assert (Hd' : 0 < d * 2 ^ s) by nia.
  assert (Best : forall k, Z.abs (2 ^ s * half_even n (d * 2 ^ s) * d - n) <= Z.abs (k * 2 ^ s * d - n)).
  { intros k. assert (B := half_even_best n (d * 2 ^ s) k Hn Hd').
    replace (2 ^ s * half_even n (d * 2 ^ s) * d) with (half_even n (d * 2 ^ s) * (d * 2 ^ s)) by ring.
    replace (k * 2 ^ s * d) with (k * (d * 2 ^ s)) by ring. exact B. }
  assert (Q : 0 <= n / d) by (apply Z.div_pos; lia).
  assert (Up : n / d < 2 ^ (s + 53)).
  { destruct (Z.eq_dec (n / d) 0) as [->|Nq]; [apply pow_pos; lia|].
    apply Z.log2_lt_pow2; [lia|]. unfold s, shift64. lia. }
  split.
  - assert (M : half_even n (d * 2 ^ s) <= 2 ^ 53).
    { assert (G : n / (d * 2 ^ s) < 2 ^ 53).
      { apply Z.div_lt_upper_bound; [exact Hd'|]. pose proof (Z.mul_succ_div_gt n d Hd) as W.
        replace (d * 2 ^ s * 2 ^ 53) with (d * 2 ^ (s + 53)) by (rewrite Z.pow_add_r by lia; ring). nia. }
      unfold half_even. cbv zeta. destruct (_ ?= _); [destruct (Z.even _)|..]; lia. }
    assert (M0 : 0 <= half_even n (d * 2 ^ s)) by (apply half_even_near; assumption).
    destruct (Z.eq_dec (half_even n (d * 2 ^ s)) (2 ^ 53)) as [E|N].
    + exists (2 ^ 52), (s + 1). split; [split; reflexivity || discriminate|]. split; [lia|]. rewrite E, (Z.pow_add_r 2 s 1) by lia. change (2 ^ 53) with (2 * 2 ^ 52). ring.
    + exists (half_even n (d * 2 ^ s)), s. split; [lia|]. split; [exact S|]. ring.
  - intros x (m & e & Hm & He & ->). destruct (Z.le_gt_cases s e) as [L|L].
    + replace (m * 2 ^ e) with (m * 2 ^ (e - s) * 2 ^ s); [apply Best|]. rewrite <- Z.mul_assoc, <- Z.pow_add_r by lia. do 2 f_equal. lia.
    + assert (Lg : s = Z.log2 (n / d) - 52) by (unfold s, shift64 in *; lia).
      assert (Qp : 0 < n / d). { destruct (Z.eq_dec (n / d) 0) as [Z0|]; [|lia]. rewrite Z0 in Lg. cbn in Lg. lia. }
      assert (Lo : 2 ^ (s + 52) <= n / d) by (apply Z.log2_le_pow2; lia).
      assert (Lo' : 2 ^ (s + 52) * d <= n) by (pose proof (Z.mul_div_le n d Hd); nia).
      specialize (Best (2 ^ 52)). replace (2 ^ 52 * 2 ^ s) with (2 ^ (s + 52)) in Best by (rewrite Z.pow_add_r by lia; ring).
      assert (X : m * 2 ^ e <= 2 ^ (s + 52)).
      { replace (s + 52) with (53 + (s - 1)) by lia. rewrite Z.pow_add_r by lia. assert (2 ^ e <= 2 ^ (s - 1)) by (apply Z.pow_le_mono_r; lia).
        assert (0 < 2 ^ e) by (apply pow_pos; lia). nia. }
      eapply Z.le_trans; [exact Best|]. nia.
Qed.

(** ** Keys *)
Lemma unit_pos : 0 < unit64.
Proof. reflexivity. Qed.
Lemma float_of_int z : 0 <= z < 2 ^ 53 -> float_of z = Fin (z * unit64).
Proof.
  intros H. unfold float_of. rewrite <- (Z.mul_1_r (z * unit64)) at 1. apply round_exact; [lia| |].
  - exists z, 1074. split; [exact H|]. split; [lia|reflexivity].
  - eapply Z.lt_le_trans; [apply Z.mul_lt_mono_pos_r; [exact unit_pos|apply H]|]. vm_compute. discriminate.
Qed.
Lemma hash64_near t : exists h, bounded_str_hash64 t = Fin h /\ 0 <= h /\
  2 * Z.abs (h * 1000000 - bounded_str_hash t * unit64) <= 1000000 * 2 ^ 1021.
Proof.
  pose proof (bounded_str_hash_range t) as R. unfold bounded_str_hash64.
  rewrite float_of_int by (change (2 ^ 53) with 9007199254740992; lia). cbn [div64].
  apply (round_near (bounded_str_hash t * unit64) 1000000 1074); [pose proof unit_pos; nia|lia|lia|].
  change (2 ^ 1074) with unit64. pose proof unit_pos. nia.
Qed.
(** The arithmetic, with a unit of 2^74 times [B]. *)
Lemma bound_col l x c1 B : 0 < B -> 1 <= l <= 4000000 -> 0 <= x < 1000 ->
  2 * Z.abs (c1 * 1000 - x * (2 ^ 74 * B)) <= 1000 * (2 ^ 21 * B) -> l * (2 ^ 74 * B) + c1 < 2 ^ 96 * B.
Proof.
  change (2 ^ 74) with 18889465931478580854784. change (2 ^ 21) with 2097152. change (2 ^ 96) with 79228162514264337593543950336.
  intros HB Hl Hx N. assert (0 <= x * B <= 1000 * B) by nia. assert (l * B <= 4000000 * B) by nia. lia.
Qed.
Lemma sum_col l x c1 s1 B : 0 < B ->
  2 * Z.abs (c1 * 1000 - x * (2 ^ 74 * B)) <= 1000 * (2 ^ 21 * B) ->
  2 * Z.abs (s1 * 1 - (l * (2 ^ 74 * B) + c1)) <= 1 * (2 ^ 43 * B) ->
  2 * Z.abs (1000 * s1 - (1000 * l + x) * (2 ^ 74 * B)) <= 1000 * (2 ^ 43 * B) + 1000 * (2 ^ 21 * B).
Proof.
  change (2 ^ 74) with 18889465931478580854784. change (2 ^ 21) with 2097152. change (2 ^ 43) with 8796093022208.
  intros HB N1 N2. lia.
Qed.
Lemma bound_hash t h B : 0 < B -> 0 <= t < 1000000 -> 2 * Z.abs (h * 1000000 - t * (2 ^ 74 * B)) <= 1000000 * (2 ^ 21 * B) ->
  h < 2 ^ 65 * B * 1000.
Proof.
  change (2 ^ 74) with 18889465931478580854784. change (2 ^ 21) with 2097152. change (2 ^ 65) with 36893488147419103232.
  intros HB Ht N. assert (0 <= t * B <= 1000000 * B) by nia. lia.
Qed.
Lemma bound_sum l co h h2 s1 B : 0 < B -> 1 <= l <= 4000000 -> 0 <= co < 1000 -> h < 2 ^ 65 * B * 1000 ->
  2 * Z.abs (h2 * 1000 - h) <= 1000 * (2 ^ 12 * B) ->
  2 * Z.abs (1000 * s1 - (1000 * l + co) * (2 ^ 74 * B)) <= 1000 * (2 ^ 43 * B) + 1000 * (2 ^ 21 * B) ->
  s1 + h2 < 2 ^ 96 * B * 1.
Proof.
  change (2 ^ 74) with 18889465931478580854784. change (2 ^ 21) with 2097152. change (2 ^ 43) with 8796093022208.
  change (2 ^ 65) with 36893488147419103232. change (2 ^ 12) with 4096. change (2 ^ 96) with 79228162514264337593543950336.
  intros HB Hl Hx Hh N1 N2. assert (0 <= co * B <= 1000 * B) by nia. assert (l * B <= 4000000 * B) by nia. lia.
Qed.
Lemma sum_all l co t h h2 s1 s2 B : 0 < B ->
  2 * Z.abs (h * 1000000 - t * (2 ^ 74 * B)) <= 1000000 * (2 ^ 21 * B) ->
  2 * Z.abs (h2 * 1000 - h) <= 1000 * (2 ^ 12 * B) ->
  2 * Z.abs (1000 * s1 - (1000 * l + co) * (2 ^ 74 * B)) <= 1000 * (2 ^ 43 * B) + 1000 * (2 ^ 21 * B) ->
  2 * Z.abs (s2 * 1 - (s1 + h2)) <= 1 * (2 ^ 43 * B) ->
  2 * Z.abs (1000000000 * s2 - (1000000000 * l + 1000000 * co + t) * (2 ^ 74 * B)) < 2 ^ 74 * B.
Proof.
  change (2 ^ 74) with 18889465931478580854784. change (2 ^ 21) with 2097152. change (2 ^ 43) with 8796093022208. change (2 ^ 12) with 4096.
  intros. lia.
Qed.
Lemma key64_near l c t : small_position l c -> exists f, key64 l c t = Some (Fin f) /\
  2 * Z.abs (1000000000 * f - (1000000000 * l + 1000000 * col_of c + bounded_str_hash t) * unit64) < unit64.
Proof.
  intros (Hl & Hc). assert (Ub : unit64 = 2 ^ 74 * 2 ^ 1000) by (vm_compute; reflexivity).
  assert (B0 : 0 < 2 ^ 1000) by (apply pow_pos; lia).
  pose proof (bounded_str_hash_range t) as R. destruct (hash64_near t) as (h & Eh & Ph & Nh).
  replace (2 ^ 1021) with (2 ^ 21 * 2 ^ 1000) in Nh by (vm_compute; reflexivity). rewrite Ub in Nh.
  assert (Hh1 : h < 2 ^ 65 * 2 ^ 1000 * 1000) by (eapply bound_hash; eassumption).
  destruct (round_near h 1000 1065 Ph ltac:(lia) ltac:(lia)) as (h2 & E2 & P2 & N2).
  { replace (2 ^ 1065) with (2 ^ 65 * 2 ^ 1000) by (vm_compute; reflexivity). exact Hh1. }
  change (1065 - 53) with 1012 in N2. replace (2 ^ 1012) with (2 ^ 12 * 2 ^ 1000) in N2 by (vm_compute; reflexivity).
  assert (Fl : float_of l = Fin (l * unit64)) by (apply float_of_int; change (2 ^ 53) with 9007199254740992; lia).
  assert (Hco : 0 <= col_of c < 1000) by (destruct c as [x|]; cbn; [apply Hc; reflexivity|lia]).
  assert (S1 : exists s1, match c with None => float_of l | Some x => add64 (float_of l) (div64 (float_of x) 1000) end = Fin s1 /\ 0 <= s1 /\
     2 * Z.abs (1000 * s1 - (1000 * l + col_of c) * (2 ^ 74 * 2 ^ 1000)) <= 1000 * (2 ^ 43 * 2 ^ 1000) + 1000 * (2 ^ 21 * 2 ^ 1000)).
  { destruct c as [x|]; cbn [col_of] in *.
    - rewrite Fl, (float_of_int x) by (change (2 ^ 53) with 9007199254740992; lia). cbn [div64].
      destruct (round_near (x * unit64) 1000 1074) as (c1 & Ec & Pc & Nc); [pose proof unit_pos; nia|lia|lia|change (2 ^ 1074) with unit64; pose proof unit_pos; nia|].
      rewrite Ec. cbn [add64]. change (1074 - 53) with 1021 in Nc. replace (2 ^ 1021) with (2 ^ 21 * 2 ^ 1000) in Nc by (vm_compute; reflexivity). rewrite Ub in Nc.
      destruct (round_near (l * unit64 + c1) 1 1096) as (s1 & Es & Ps & Ns); [pose proof unit_pos; nia|lia|lia| |].
      + replace (2 ^ 1096) with (2 ^ 96 * 2 ^ 1000) by (vm_compute; reflexivity). rewrite Ub, Z.mul_1_r. eapply bound_col; eassumption.
      + change (1096 - 53) with 1043 in Ns. replace (2 ^ 1043) with (2 ^ 43 * 2 ^ 1000) in Ns by (vm_compute; reflexivity).
        exists s1. split; [exact Es|]. split; [exact Ps|]. rewrite Ub in Ns. eapply sum_col; eassumption.
    - exists (l * unit64). split; [exact Fl|]. split; [pose proof unit_pos; nia|]. rewrite Ub. replace (1000 * (l * (2 ^ 74 * 2 ^ 1000)) - (1000 * l + 0) * (2 ^ 74 * 2 ^ 1000)) with 0 by ring.
      change (Z.abs 0) with 0. change (2 ^ 43) with 8796093022208. change (2 ^ 21) with 2097152. clear -B0. lia. }
  destruct S1 as (s1 & E1 & P1 & N1).
  destruct (round_near (s1 + h2) 1 1096) as (s2 & Es & Ps & Ns); [lia|lia|lia| |].
  { replace (2 ^ 1096) with (2 ^ 96 * 2 ^ 1000) by (vm_compute; reflexivity). eapply bound_sum; eassumption. }
  change (1096 - 53) with 1043 in Ns. replace (2 ^ 1043) with (2 ^ 43 * 2 ^ 1000) in Ns by (vm_compute; reflexivity).
  exists s2. split.
  - unfold key64, int_add64. rewrite Eh. cbn [div64]. rewrite E2. destruct c as [x|].
    + rewrite Fl in E1 |- *. cbn [option_map]. rewrite E1. cbn [add64]. rewrite Es. reflexivity.
    + rewrite E1. cbn [add64]. rewrite Es. reflexivity.
  - rewrite Ub. eapply sum_all; eassumption.
Qed.
Lemma key64_same l c t c' t' : small_position l c -> col_of c = col_of c' -> bounded_str_hash t = bounded_str_hash t' ->
  key64 l c t = key64 l c' t'.
Proof.
  intros (Hl & _) Ec Et. unfold key64, bounded_str_hash64. rewrite Et.
  assert (Fl : float_of l = Fin (l * unit64)) by (apply float_of_int; change (2 ^ 53) with 9007199254740992; lia).
  assert (Z0 : option_map (fun x => add64 x (div64 (div64 (float_of (bounded_str_hash t')) 1000000) 1000)) (int_add64 l (div64 (float_of 0) 1000)) =
    int_add64 l (div64 (div64 (float_of (bounded_str_hash t')) 1000000) 1000)).
  { replace (div64 (float_of 0) 1000) with (Fin 0) by (vm_compute; reflexivity). unfold int_add64. rewrite Fl. cbn [add64 option_map].
    rewrite Z.add_0_r. fold (float_of l). rewrite Fl. reflexivity. }
  destruct c as [x|], c' as [x'|]; cbn [col_of] in Ec; subst; [reflexivity|exact Z0|symmetry; exact Z0|reflexivity].
Qed.

(** ** Lines *)
(** An exact key and the key in binary64 of the same line. *)
Definition shape (k : Z) (f : option b64) : Prop :=
  (exists l c t, small_position l c /\ k = 1000000000 * l + 1000000 * col_of c + bounded_str_hash t /\ f = key64 l c t) \/
  exists t, k = 1000 * bounded_str_hash t /\ f = Some (bounded_str_hash64 t).
Lemma shape_near k f : shape k f -> exists x, f = Some (Fin x) /\ 2 * Z.abs (1000000000 * x - k * unit64) < unit64.
Proof.
  intros [(l & c & t & Hp & -> & ->)|(t & -> & ->)]; [apply key64_near; exact Hp|].
  destruct (hash64_near t) as (h & -> & Ph & Nh). exists h. split; [reflexivity|].
  assert (Ub : unit64 = 2 ^ 74 * 2 ^ 1000) by (vm_compute; reflexivity). rewrite Ub in *.
  replace (2 ^ 1021) with (2 ^ 21 * 2 ^ 1000) in Nh by (vm_compute; reflexivity).
  assert (B0 : 0 < 2 ^ 1000) by (apply pow_pos; lia). clear Ub. generalize dependent (2 ^ 1000). intros B ? ?.
  change (2 ^ 74) with 18889465931478580854784 in *. change (2 ^ 21) with 2097152 in *. lia.
Qed.
Lemma shape_same k f f' : shape k f -> shape k f' -> f = f'.
Proof.
  intros [(l & c & t & (Hl & Hc) & E & ->)|(t & E & ->)] [(l' & c' & t' & (Hl' & Hc') & E' & ->)|(t' & E' & ->)];
    pose proof (bounded_str_hash_range t) as R; pose proof (bounded_str_hash_range t') as R'.
  - assert (0 <= col_of c < 1000) by (destruct c as [x|]; cbn; [apply Hc; reflexivity|lia]).
    assert (0 <= col_of c' < 1000) by (destruct c' as [x|]; cbn; [apply Hc'; reflexivity|lia]).
    assert (l' = l) as -> by lia. apply key64_same; [split; assumption|lia|lia].
  - exfalso. destruct c as [x|]; cbn [col_of] in E; [specialize (Hc x eq_refl)|]; lia.
  - exfalso. destruct c' as [x|]; cbn [col_of] in E'; [specialize (Hc' x eq_refl)|]; lia.
  - unfold bounded_str_hash64. do 3 f_equal. lia.
Qed.
Lemma shape_le k f k' f' : shape k f -> shape k' f' -> exists x y, f = Some x /\ f' = Some y /\ leb64 x y = (k <=? k').
Proof.
  intros S S'. destruct (shape_near _ _ S) as (x & E & N), (shape_near _ _ S') as (y & E' & N'). exists (Fin x), (Fin y).
  split; [exact E|]. split; [exact E'|]. cbn [leb64].
  destruct (Z.lt_trichotomy k k') as [L|[->|L]].
  - replace (k <=? k') with true by (symmetry; apply Z.leb_le; lia). apply Z.leb_le.
    assert ((k + 1) * unit64 <= k' * unit64) by (apply Z.mul_le_mono_nonneg_r; [pose proof unit_pos; lia|lia]). lia.
  - rewrite (shape_same _ _ _ S S') in E. rewrite E in E'. injection E' as ->. rewrite !Z.leb_refl. reflexivity.
  - replace (k <=? k') with false by (symmetry; apply Z.leb_gt; lia). apply Z.leb_gt.
    assert ((k' + 1) * unit64 <= k * unit64) by (apply Z.mul_le_mono_nonneg_r; [pose proof unit_pos; lia|lia]). lia.
Qed.
Lemma ordinary_shape s : ordinary s -> shape (sort_line_column s) (sort_line_column64 s).
Proof.
  intros [(l & c & t & -> & Hp)|H].
  - left. exists l, c, (upto_newline t). split; [exact Hp|]. destruct Hp as (Hl & Hc).
    assert (Hc' : forall x, c = Some x -> 0 <= x) by (intros x Hx; apply Hc in Hx; lia).
    split; [apply sort_key_render; [lia|exact Hc']|]. unfold sort_line_column64. rewrite match_line_col_render by (lia || exact Hc').
    rewrite digits_val_z_str by lia. f_equal. destruct c as [x|]; cbn [option_map]; [|reflexivity]. rewrite digits_val_z_str by (apply Hc'; reflexivity). reflexivity.
  - right. exists s. assert (E : match_line_col s = None).
    { destruct s as [|a r]; [reflexivity|]. unfold match_line_col. destruct (Ascii.eqb_spec a "L") as [->|N]; [|reflexivity]. exfalso. apply (H r). reflexivity. }
    unfold sort_line_column, sort_line_column64. rewrite E. split; reflexivity.
Qed.
Lemma span_digits_app s : s = fst (span_digits s) +++ snd (span_digits s) /\ sall is_digit (fst (span_digits s)) = true.
Proof.
  induction s as [|c s IH]; [split; reflexivity|]. cbn [span_digits]. destruct (is_digit c) eqn:D; [|split; reflexivity].
  destruct (span_digits s) as [a b]. cbn [fst snd] in *. destruct IH as [IH1 IH2]. split; [rewrite IH1 at 1; reflexivity|].
  rewrite sall_cons, D. exact IH2.
Qed.
Lemma sall_digits s : sall is_digit s = true -> digits s.
Proof.
  intros H a. revert s H. induction a as [|x a IH]; intros s H c b E; rewrite E in H.
  - change ("" +++ String c b) with (String c b) in H. rewrite sall_cons in H. apply andb_prop in H. apply H.
  - change (String x a +++ String c b) with (String x (a +++ String c b)) in H. rewrite sall_cons in H. apply andb_prop in H.
    eapply IH; [exact (proj2 H)|reflexivity].
Qed.
Lemma match_colons_some s d d' t : match_colons s = Some (d, d', t) ->
  d <> "" /\ digits d /\ digits d' /\ exists r, s = ":" +++ d +++ ":" +++ d' +++ ":" +++ r.
Proof.
  unfold match_colons. destruct s as [|c0 s]; [discriminate|]. destruct (Ascii.eqb_spec c0 ":") as [->|]; [|discriminate].
  destruct (span_digits_app s) as [E1 D1]. destruct (span_digits s) as [e r1]. cbn [fst snd] in *.
  destruct (String.eqb_spec e "") as [|Ne]; [discriminate|]. destruct r1 as [|c1 r2]; [discriminate|].
  destruct (Ascii.eqb_spec c1 ":") as [->|]; [|discriminate]. destruct (span_digits_app r2) as [E2 D2].
  destruct (span_digits r2) as [e2 r3]. cbn [fst snd] in *. destruct r3 as [|c2 r4]; [discriminate|].
  destruct (Ascii.eqb_spec c2 ":") as [->|]; [|discriminate]. intros H. injection H as <- <- <-.
  split; [exact Ne|]. split; [apply sall_digits; exact D1|]. split; [apply sall_digits; exact D2|]. exists r4. rewrite E1, E2. reflexivity.
Qed.
Lemma match_parsable_some s d d' t : match_parsable s = Some (d, d', t) ->
  d <> "" /\ digits d /\ digits d' /\ exists p r, no_newline p /\ s = p +++ ":" +++ d +++ ":" +++ d' +++ ":" +++ r.
Proof.
  induction s as [|c s IH]; [discriminate|]. cbn [match_parsable]. destruct (match_colons (String c s)) as [q|] eqn:M.
  - intros H. injection H as ->. apply match_colons_some in M. destruct M as (A & B & C & r & E). repeat (split; [assumption|]).
    exists "", r. split; [|exact E]. intros a b X. destruct a; discriminate.
  - destruct (Ascii.eqb_spec c (ascii_of_nat 10)) as [|Nc]; [discriminate|]. intros H. destruct (IH H) as (A & B & C & p & r & Np & E).
    repeat (split; [assumption|]). exists (String c p), r. split; [|rewrite E; reflexivity].
    intros a b X. destruct a as [|x a]; cbn in X; injection X as X1 X2; [subst c; apply Nc; reflexivity|]. eapply Np. exact X2.
Qed.
Lemma parsable_shape s : ordinary_parsable s -> shape (sort_line_column_parsable s) (sort_line_column_parsable64 s).
Proof.
  intros [(p & l & c & t & Pp & -> & Hp)|H].
  - left. exists l, c, (upto_newline t). split; [exact Hp|]. destruct Hp as (Hl & Hc).
    assert (Hc' : forall x, c = Some x -> 0 <= x) by (intros x Hx; apply Hc in Hx; lia).
    split; [apply sort_key_parsable; [exact Pp|lia|exact Hc']|]. unfold sort_line_column_parsable64. rewrite match_parsable_render by (assumption || lia).
    rewrite digits_val_z_str by lia. f_equal. destruct c as [x|]; [|reflexivity].
    destruct (String.eqb_spec (z_str x) ""); [exfalso; eapply z_str_nonempty; eauto|]. rewrite digits_val_z_str by (apply Hc'; reflexivity). reflexivity.
  - right. exists s. assert (E : match_parsable s = None).
    { destruct (match_parsable s) as [[[d d'] t]|] eqn:M; [|reflexivity]. exfalso. apply match_parsable_some in M.
      destruct M as (A & B & C & p & r & Np & E). apply A. eapply H; eassumption. }
    unfold sort_line_column_parsable, sort_line_column_parsable64. rewrite E. split; reflexivity.
Qed.

(** ** Sorting *)
Lemma insert_map {A B} (f : A -> B) (le : A -> A -> bool) (le' : B -> B -> bool) x l :
  (forall y, In y l -> le x y = le' (f x) (f y)) -> map f (insert le x l) = insert le' (f x) (map f l).
Proof.
  induction l as [|y l IH]; intros H; [reflexivity|]. cbn [insert map]. rewrite (H y (or_introl eq_refl)).
  destruct (le' (f x) (f y)); [reflexivity|]. cbn [map]. rewrite IH by (intros z Hz; apply H; right; exact Hz). reflexivity.
Qed.
Lemma isort_map {A B} (f : A -> B) (le : A -> A -> bool) (le' : B -> B -> bool) l :
  (forall x y, In x l -> In y l -> le x y = le' (f x) (f y)) -> map f (isort le l) = isort le' (map f l).
Proof.
  induction l as [|x l IH]; intros H; [reflexivity|]. cbn [isort map]. rewrite (insert_map f le le').
  - rewrite IH by (intros; apply H; right; assumption). reflexivity.
  - intros y Hy. apply isort_In in Hy. apply H; [left; reflexivity|right; exact Hy].
Qed.
Lemma keyed_all key (l : list string) : (forall x, In x l -> exists k, key x = Some k) ->
  exists p, keyed64 key l = Some p /\ map snd p = l /\ forall q, In q p -> key (snd q) = Some (fst q).
Proof.
  induction l as [|x l IH]; intros H; [exists []; split; [reflexivity|]; split; [reflexivity|intros q []]|].
  destruct (H x (or_introl eq_refl)) as (k & E). destruct IH as (p & E' & M & K); [intros; apply H; right; assumption|].
  exists ((k, x) :: p). cbn [keyed64]. rewrite E, E'. split; [reflexivity|]. split; [cbn; rewrite M; reflexivity|].
  intros q [<-|Hq]; [exact E|apply K; exact Hq].
Qed.
Lemma sort64_same key key64 (l : list string) : (forall x, In x l -> shape (key x) (key64 x)) ->
  sort64 key64 l = Some (isort (by_key key) l).
Proof.
  intros H. unfold sort64. destruct (keyed_all key64 l) as (p & E & M & K).
  { intros x Hx. destruct (shape_near _ _ (H x Hx)) as (f & Ef & _). eauto. }
  rewrite E. cbn [option_map]. f_equal. rewrite <- M. apply isort_map. intros q q' Hq Hq'.
  assert (In (snd q) l) by (rewrite <- M; apply in_map; exact Hq). assert (In (snd q') l) by (rewrite <- M; apply in_map; exact Hq').
  destruct (shape_le _ _ _ _ (H _ H0) (H _ H1)) as (x & y & Ex & Ey & L). rewrite (K _ Hq) in Ex. rewrite (K _ Hq') in Ey.
  injection Ex as <-. injection Ey as <-. exact L.
Qed.
Lemma sort_output64 c lines : (forall s, In s lines -> ordinary_line c s) ->
  sort_output_lines64 c lines = Some (sort_output_lines c lines).
Proof.
  intros H. unfold sort_output_lines64, sort_output_lines, ordinary_line in *. destruct (c_format c).
  - destruct (_ && _); [|reflexivity]. apply sort64_same. intros x Hx. apply ordinary_shape, H, Hx.
  - apply sort64_same. intros x Hx. apply parsable_shape, H, Hx.
Qed.

(** ** Orders *)
Lemma shape_lt k f k' f' : shape k f -> shape k' f' -> k < k' -> exists x y, f = Some (Fin x) /\ f' = Some (Fin y) /\ x < y.
Proof.
  intros S S' L. destruct (shape_near _ _ S) as (x & E & N), (shape_near _ _ S') as (y & E' & N'). exists x, y.
  split; [exact E|]. split; [exact E'|].
  assert ((k + 1) * unit64 <= k' * unit64) by (apply Z.mul_le_mono_nonneg_r; [pose proof unit_pos; lia|lia]). lia.
Qed.
Lemma shape_eq k f k' f' : shape k f -> shape k' f' -> (f = f' <-> k = k').
Proof.
  intros S S'. split; [|intros ->; eapply shape_same; eassumption]. intros ->.
  destruct (Z.lt_trichotomy k k') as [L|[E|L]]; [|exact E|].
  - destruct (shape_lt _ _ _ _ S S' L) as (x & y & Ex & Ey & Lt). rewrite Ex in Ey. injection Ey as ->. lia.
  - destruct (shape_lt _ _ _ _ S' S L) as (x & y & Ex & Ey & Lt). rewrite Ex in Ey. injection Ey as ->. lia.
Qed.
Lemma small_ok l c : small_position l c -> pos_ok l c.
Proof. intros (Hl & Hc). split; [lia|exact Hc]. Qed.
Lemma position_order64 l c t l' c' t' : small_position l c -> small_position l' c' -> pos_lt l c l' c' ->
  exists x y, sort_line_column64 (render l c t) = Some (Fin x) /\ sort_line_column64 (render l' c' t') = Some (Fin y) /\ x < y.
Proof.
  intros P P' L. eapply shape_lt; [apply ordinary_shape; left; eauto 6|apply ordinary_shape; left; eauto 6|].
  apply sort_by_position; [apply small_ok; exact P|apply small_ok; exact P'|exact L].
Qed.
Lemma parsable_order64 p l c t p' l' c' t' : plain_path p -> plain_path p' ->
  small_position l c -> small_position l' c' -> pos_lt l c l' c' ->
  exists x y, sort_line_column_parsable64 (render_parsable p l c t) = Some (Fin x) /\
    sort_line_column_parsable64 (render_parsable p' l' c' t') = Some (Fin y) /\ x < y.
Proof.
  intros Pp Pp' P P' L. eapply shape_lt; [apply parsable_shape; left; exists p, l, c, t; eauto|apply parsable_shape; left; exists p', l', c', t'; eauto|].
  apply sort_by_position_parsable; [exact Pp|exact Pp'|apply small_ok; exact P|apply small_ok; exact P'|exact L].
Qed.
Lemma same_key64 a b : ordinary a -> ordinary b ->
  (sort_line_column64 a = sort_line_column64 b <-> sort_line_column a = sort_line_column b).
Proof. intros. apply shape_eq; apply ordinary_shape; assumption. Qed.
Lemma same_parsable_key64 a b : ordinary_parsable a -> ordinary_parsable b ->
  (sort_line_column_parsable64 a = sort_line_column_parsable64 b <-> sort_line_column_parsable a = sort_line_column_parsable b).
Proof. intros. apply shape_eq; apply parsable_shape; assumption. Qed.
