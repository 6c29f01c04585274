(** C64: the positions printed in front of findings are positions in the source, where what is told of is used. *)
From Verif Require Import PyBase PyLemmas Utility RulesData Rules Config Formats Paths AstKinds Ast State Visitor MinVersions
  Spec_Base Spec_Utility Spec_Formats Spec_Visitor Spec_MinVersions Spec_Places Spec_Explain
  Proof_Utility Proof_Tour Proof_Shapes Proof_Places Proof_Spots Prop_Visitor Prop_Explain Trees.

(** Every position is that of something in the source. *)
Theorem c64_in_source : forall e v s m s', c_print_visits (e_cfg e) = false -> placed_tree v -> tour e v = Ok s ->
  minimum_versions e s = Ok (m, s') -> forall line, In line (s_out s') -> points_into e v line.
Proof. exact good_lines. Qed.
Print Assumptions c64_in_source.

(** Everything found of the library that is to be shown has such a line. *)
Theorem c64_each_said : forall e v s m s', c_print_visits (e_cfg e) = false -> placed_tree v -> tour e v = Ok s ->
  minimum_versions e s = Ok (m, s') -> 3 <= c_verbose (e_cfg e) ->
  forall x msg r, outspoken (e_cfg e) -> finding (bps_of e) s x msg r -> on_show (e_cfg e) r ->
  exists y, In y (s_out s') /\ said_where_used e v x msg r y.
Proof. exact each_said. Qed.
Print Assumptions c64_each_said.

(** ** Cases *)
Definition placedb (v : pyval) : bool :=
  forallb (fun n => match n with
    | VNode k _ p fs => (existsb (kind_eqb k) unplaced || (match p with Some _ => true | None => false end)) &&
        (match p with Some (l, _) => 1 <=? l | None => true end) &&
        forallb (fun d => match pos_of d with Some _ => true | None => false end) (items "decorator_list" n)
    | _ => true end) (walk v).
Lemma placedb_ok v : placedb v = true -> placed_tree v.
Proof.
  intros H. assert (W : forall n, below n v -> match n with
    | VNode k _ p fs => (existsb (kind_eqb k) unplaced || (match p with Some _ => true | None => false end)) &&
        (match p with Some (l, _) => 1 <=? l | None => true end) &&
        forallb (fun d => match pos_of d with Some _ => true | None => false end) (items "decorator_list" n)
    | _ => true end = true).
  { intros n B. apply walk_below in B. unfold placedb in H. rewrite forallb_forall in H. exact (H n B). }
  clear H. split; [|split].
  - intros k u p fs B N ->. specialize (W _ B). cbn beta iota in W. rewrite !andb_true_iff in W. destruct W as [[W _] _].
    rewrite orb_false_r in W. apply existsb_exists in W as (k' & I & E). apply kind_eqb_eq in E as <-. exact (N I).
  - intros n d B I P. specialize (W _ B). destruct n as [ | | | | | | | | |k u p fs]; try destruct I.
    rewrite !andb_true_iff in W. destruct W as [_ W]. rewrite forallb_forall in W. specialize (W d I). rewrite P in W. discriminate.
  - intros n l c B P. specialize (W _ B). destruct n as [ | | | | | | | | |k u p fs]; try discriminate. cbn in P. subst p.
    rewrite !andb_true_iff in W. destruct W as [[_ W] _]. apply Z.leb_le, W.
Qed.

Ltac each_node B := apply walk_below in B; vm_compute in B;
  repeat match type of B with _ \/ _ => destruct B as [B|B] end; [subst..|destruct B].

(** The line printed for a feature is not always one of it: that of an f-string is the line of what is around. *)
Theorem c64_feature_line_refuted : exists e v s m s', c_print_visits (e_cfg e) = false /\ placed_tree v /\ tour e v = Ok s /\
  minimum_versions e s = Ok (m, s') /\ 3 <= c_verbose (e_cfg e) /\
  In (format_output_line (e_cfg e) "f-strings" (e_path e) (Some 3) None (Some (no2 6)) (Some true)) (s_out s') /\
  forall n, below n v -> isa KJoinedStr n -> lineno n <> 3.
Proof.
  exists env_parsable, tree_spots, (ended (tour env_parsable tree_spots)).
  eexists _, _. split; [reflexivity|]. split; [apply placedb_ok; run|]. split; [run|]. split; [run|]. split; [cbn; lia|]. split.
  - vm_compute. auto 20.
  - intros n B K. each_node B; first [discriminate K|vm_compute; discriminate].
Qed.
Print Assumptions c64_feature_line_refuted.

(** Nor is that of a module always one that uses the module: the same text used as something else moves it. *)
Theorem c64_module_line_refuted : exists e v s m s', c_print_visits (e_cfg e) = false /\ placed_tree v /\ tour e v = Ok s /\
  minimum_versions e s = Ok (m, s') /\ 3 <= c_verbose (e_cfg e) /\
  (exists c, In (format_output_line (e_cfg e) "'bz2' module" (e_path e) (Some 5) c (Some (both 3 0)) None) (s_out s')) /\
  forall n, below n v -> module_use n "bz2" -> lineno n <> 5.
Proof.
  exists env_parsable, tree_spots, (ended (tour env_parsable tree_spots)).
  eexists _, _. split; [reflexivity|]. split; [apply placedb_ok; run|]. split; [run|]. split; [run|]. split; [cbn; lia|]. split.
  - exists None. vm_compute. auto 20.
  - intros n B U E. each_node B; try discriminate E; destruct U as [[K _]|[[K _]|[(p & x & [K _] & _)|[K [D|(a & D)]]]]]; try discriminate K.
    + discriminate D.
    + destruct a as [|? [|? [|? [|? ?]]]]; discriminate D.
Qed.
Print Assumptions c64_module_line_refuted.

(** The column of a module is that of the first one in its statement. *)
Theorem c64_column_refuted : exists e v s m s', c_print_visits (e_cfg e) = false /\ placed_tree v /\ tour e v = Ok s /\
  minimum_versions e s = Ok (m, s') /\ 3 <= c_verbose (e_cfg e) /\
  In (format_output_line (e_cfg e) "'functools' module" (e_path e) (Some 1) (Some 7) (Some (both 5 0)) None) (s_out s') /\
  forall n, below n v -> isa Kalias n -> attr "name" n = VStr "functools" -> pos_of n = Some (1, 15).
Proof.
  exists env_parsable, tree_asks, (ended (tour env_parsable tree_asks)).
  eexists _, _. split; [reflexivity|]. split; [apply placedb_ok; run|]. split; [run|]. split; [run|]. split; [cbn; lia|]. split.
  - vm_compute. auto 20.
  - intros n B K N. each_node B; try discriminate K; try discriminate N; reflexivity.
Qed.
Print Assumptions c64_column_refuted.

Example c64_case : placed_tree tree_asks /\ c_print_visits (e_cfg env_parsable) = false /\ 3 <= c_verbose (e_cfg env_parsable) /\
  outspoken (e_cfg env_parsable) /\ (forall r, on_show (e_cfg env_parsable) r) /\
  (exists s, tour env_parsable tree_asks = Ok s /\ finding (bps_of env_parsable) s "q" "array typecode 'q'" (no2 3)) /\
  lines_of env_parsable tree_asks =
  ["a.py:1:7:2.7:3.2:'argparse' module"; "a.py:1:7:2.5:3.0:'functools' module"; "a.py:2::2.4:3.0:function decorators";
   "a.py:2::!2:3.9:'functools.cache' member"; "a.py:2::!2:3.9:'functools.cache' user function decorator";
   "a.py:3::!2:3.4:codecs encoding 'hex'"; "a.py:3::2.4:3.0:'codecs.encode' member";
   "a.py:3::!2:3.5:codecs error handler name 'namereplace'"; "a.py:4::!2:3.6:strftime directive 'G'";
   "a.py:5::!2:3.5:bytes directive 'a'"; "a.py:5::2.6:3.0:byte string (b'..') or `str` synonym";
   "a.py:6:12:!2:3.3:array typecode 'q'"; "a.py:9:9:!2:3.6:'ModuleNotFoundError' member";
   "a.py:10::2.6:3.0:'os.path.relpath' member"].
Proof.
  split; [apply placedb_ok; run|]. split; [reflexivity|]. split; [cbn; lia|]. split; [split; [left; reflexivity|cbn; lia]|].
  split; [intros r; left; reflexivity|]. split; [|run]. ok. apply fi_typecode; vm_compute; auto.
Qed.
