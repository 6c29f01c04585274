(** C09, C10, C50: the order of the lines with the sort keys computed in binary64, as Python does. *)
From Verif Require Import PyBase PyLemmas Utility Config Formats Binary64
  Spec_Base Spec_Utility Spec_Formats Spec_Binary64 Proof_Utility Proof_Binary64.

(** The arithmetic used is that of binary64: every result is a nearest number. *)
Theorem c09_rounding : forall n d r, 0 <= n -> 0 < d -> round64 n d = Fin r -> nearest n d r.
Proof. exact round_nearest. Qed.
Print Assumptions c09_rounding.
(** 1/3 is between two of its numbers, 2^53 + 1 as far from either neighbour; from 2^1024 on there is none. *)
Example c09_rounding_case :
  round64 unit64 3 = Fin (6004799503160661 * 2 ^ 1020) /\ float_of (2 ^ 53 + 1) = float_of (2 ^ 53) /\
  float_of (2 ^ 53 + 3) = float_of (2 ^ 53 + 4) /\ float_of (10 ^ 309) = Inf.
Proof. repeat split; vm_compute; reflexivity. Qed.

(** Lines of both kinds sort by line, then by column. *)
Theorem c09_position_binary64_partial : forall l c t l' c' t', small_position l c -> small_position l' c' -> pos_lt l c l' c' ->
  exists x y, sort_line_column64 (render l c t) = Some (Fin x) /\ sort_line_column64 (render l' c' t') = Some (Fin y) /\ x < y.
Proof. exact position_order64. Qed.
Print Assumptions c09_position_binary64_partial.
Theorem c09_parsable_binary64_partial : forall p l c t p' l' c' t', plain_path p -> plain_path p' ->
  small_position l c -> small_position l' c' -> pos_lt l c l' c' ->
  exists x y, sort_line_column_parsable64 (render_parsable p l c t) = Some (Fin x) /\
    sort_line_column_parsable64 (render_parsable p' l' c' t') = Some (Fin y) /\ x < y.
Proof. exact parsable_order64. Qed.
Print Assumptions c09_parsable_binary64_partial.
Example c09_binary64_case : small_position 4000000 (Some 998) /\ small_position 4000000 (Some 999) /\
  pos_lt 4000000 (Some 998) 4000000 (Some 999) /\
  sort_line_column64 (render 4000000 (Some 998) " zzz") = Some (Fin (4398047608429309440 * 2 ^ 1034)) /\
  sort_line_column64 (render 4000000 (Some 999) " a") = Some (Fin (4398047609520243712 * 2 ^ 1034)).
Proof.
  split; [split; [lia|]; intros x H; injection H as <-; lia|]. split; [split; [lia|]; intros x H; injection H as <-; lia|].
  split; [right; cbn; lia|]. split; vm_compute; reflexivity.
Qed.

(** Without the bound on lines it is false: from 2^53 on, neighbouring lines share a key, and from 10^309 on
    there is none (OverflowError). *)
Theorem c09_far_lines_refuted : exists l l' t, l < l' /\
  sort_line_column64 (render l None t) = sort_line_column64 (render l' None t) /\
  exists far, sort_line_column64 (render far None t) = None.
Proof.
  exists (2 ^ 53), (2 ^ 53 + 1), " x". split; [reflexivity|]. split; [vm_compute; reflexivity|].
  exists (10 ^ 309). vm_compute. reflexivity.
Qed.
Print Assumptions c09_far_lines_refuted.

(** Rounding makes no two keys equal that were not, so what C10 says of lines sharing a key holds as computed. *)
Theorem c10_keys_binary64 : forall a b, ordinary a -> ordinary b ->
  (sort_line_column64 a = sort_line_column64 b <-> sort_line_column a = sort_line_column b).
Proof. exact same_key64. Qed.
Print Assumptions c10_keys_binary64.
Theorem c10_parsable_keys_binary64 : forall a b, ordinary_parsable a -> ordinary_parsable b ->
  (sort_line_column_parsable64 a = sort_line_column_parsable64 b <-> sort_line_column_parsable a = sort_line_column_parsable b).
Proof. exact same_parsable_key64. Qed.
Print Assumptions c10_parsable_keys_binary64.

(** Sorting by the keys as computed gives the list that sorting by the exact keys gives, so what C50 says of the
    order of the text holds of the text as printed. *)
Theorem c50_sorted_binary64_partial : forall c lines, (forall s, In s lines -> ordinary_line c s) ->
  sort_output_lines64 c lines = Some (sort_output_lines c lines).
Proof. exact sort_output64. Qed.
Print Assumptions c50_sorted_binary64_partial.
Example c50_binary64_case :
  let lines := ["L12 C7: 'b' requires !2, 3.4"; "print(expr) requires 2+"; "L12: 'a' requires !2, 3.4"; "L2 C900: x"] in
  let cfg := w_verbose 3 (default_config 1) in
  (forall s, In s lines -> ordinary_line cfg s) /\
  sort_output_lines64 cfg lines = Some ["print(expr) requires 2+"; "L2 C900: x"; "L12: 'a' requires !2, 3.4"; "L12 C7: 'b' requires !2, 3.4"].
Proof.
  intros lines cfg. split; [|vm_compute; reflexivity].
  intros s [<-|[<-|[<-|[<-|[]]]]].
  - left. exists 12, (Some 7), " 'b' requires !2, 3.4". split; [reflexivity|]. split; [lia|]. intros x H. injection H as <-. lia.
  - right. discriminate.
  - left. exists 12, None, " 'a' requires !2, 3.4". split; [reflexivity|]. split; [lia|]. discriminate.
  - left. exists 2, (Some 900), " x". split; [reflexivity|]. split; [lia|]. intros x H. injection H as <-. lia.
Qed.
