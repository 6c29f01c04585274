(** The tests of the visitor hold of every construct they are for. Lemmas for C38. *)
From Verif Require Import PyBase PyLemmas Utility RulesData Rules Config Formats Paths AstKinds Ast State Visitor
  Spec_Base Spec_Visitor Spec_Same Spec_Seen Proof_Strings Proof_Shapes Proof_Tour.

Lemma isa_node k v : isa k v -> exists u p fs, v = VNode k u p fs.
Proof.
  destruct v as [ |b|z|s|s|s|s| |l|j u p fs]; try discriminate. intros H. apply kind_eqb_eq in H as ->. exists u, p, fs. reflexivity.
Qed.
Lemma named_node_eq n v : named n v -> exists u p fs, v = VNode KName u p fs /\ fstr "id" fs = n.
Proof.
  intros [K A]. apply isa_node in K as (u & p & fs & ->). exists u, p, fs. split; [reflexivity|].
  change (attr "id" (VNode KName u p fs)) with (fld "id" fs) in A. unfold fstr. rewrite A. reflexivity.
Qed.
Lemma named_name_id n v : named n v -> name_id v = Some n.
Proof. intros [K A]. apply isa_node in K as (u & p & fs & ->). cbn. f_equal. unfold fstr. change (fld "id" fs) with (attr "id" (VNode KName u p fs)). rewrite A. reflexivity. Qed.
Lemma constant_const_val c v : constant c v -> const_val v = Some c.
Proof. intros [K A]. apply isa_node in K as (u & p & fs & ->). cbn. f_equal. exact A. Qed.
Lemma constant_str_val t v : constant (VStr t) v -> str_val v = Some t.
Proof. intros H. unfold str_val. rewrite (constant_const_val _ _ H). reflexivity. Qed.
Lemma constant_bytes b v : constant (VBytes b) v -> is_bytes_node v = true.
Proof. intros H. unfold is_bytes_node. rewrite (constant_const_val _ _ H). reflexivity. Qed.
Lemma constant_int z v : constant (VInt z) v -> int_const v = Some z.
Proof. intros H. unfold int_const. rewrite (constant_const_val _ _ H). reflexivity. Qed.
Lemma unary_int v : isa KUnaryOp v -> int_const v = None.
Proof. intros K. apply isa_node in K as (u & p & fs & ->). reflexivity. Qed.
Lemma literal_int_node v : int_literal v -> is_int_node v = true.
Proof.
  intros [(z & H)|(K & z & H)]; unfold is_int_node.
  - rewrite (constant_int _ _ H). reflexivity.
  - rewrite (unary_int _ K), (constant_int _ _ H), K. reflexivity.
Qed.
Lemma literal_neg_node v : negative_literal v -> is_neg_int_node v = true.
Proof.
  intros [(z & H & N)|(K & O & z & H)]; unfold is_neg_int_node.
  - rewrite (constant_int _ _ H). apply Z.ltb_lt, N.
  - rewrite (unary_int _ K), (constant_int _ _ H), K, O. reflexivity.
Qed.
Lemma literal_none_node v : none_literal v -> is_none_node v = true.
Proof.
  intros [H|H]; unfold is_none_node.
  - rewrite (named_name_id _ _ H). reflexivity.
  - rewrite (constant_const_val _ _ H). destruct H as [K _]. apply isa_node in K as (u & p & fs & ->). reflexivity.
Qed.
Lemma star_load_unpack v : star_load v -> is_valid_star_unpack v = true.
Proof. intros [A B]. unfold is_valid_star_unpack. rewrite A, B. reflexivity. Qed.
Lemma double_kw_unpack v : double_star v -> is_kw_unpack v = true.
Proof.
  intros [A B]. unfold is_kw_unpack. apply is_none_iff in A. apply is_none_false in B. rewrite A, B. reflexivity.
Qed.
Lemma not_last_needs {A} (f : A -> bool) (P : A -> Prop) l : (forall x, P x -> f x = true) -> not_last P l -> needs_gen_unp f l = true.
Proof.
  intros H (a & x & y & b & -> & X). unfold needs_gen_unp. apply orb_true_iff. right. apply existsb_exists. exists (List.length a).
  split.
  - apply positions_spec. exists a, x, (y :: b). split; [reflexivity|]. split; [exact (H _ X)|reflexivity].
  - apply Nat.ltb_lt. rewrite app_length. cbn [List.length]. lia.
Qed.
Lemma annotates_ann_is n ann : annotates n ann -> ann_is n ann = true.
Proof.
  unfold ann_is. intros [H|[K H]]; apply orb_true_iff; [left|right].
  - apply ostr_eqb_eq, named_name_id, H.
  - apply andb_true_iff. split; [exact K|]. apply ostr_eqb_eq, named_name_id, H.
Qed.
Lemma annotates_only a b ann : annotates a ann -> annotates b ann -> a = b.
Proof.
  intros [A|[A A']] [C|[C C']].
  - apply named_name_id in A, C. congruence.
  - destruct A as [A _]. apply isa_node in A as (u & p & fs & ->). discriminate.
  - destruct C as [C _]. apply isa_node in C as (u & p & fs & ->). discriminate.
  - apply named_name_id in A', C'. congruence.
Qed.
Lemma below_relaxed d m : below m (decorator_of d) -> ~ plain m -> is_relaxed_deco d = true.
Proof.
  intros B N. unfold is_relaxed_deco. apply existsb_exists. exists m. split; [apply walk_below, B|].
  apply negb_true_iff, not_true_iff_false. intros H. apply N. unfold plain_deco_node in H. apply orb_true_iff in H as [H|H]; [|right; right; exact H].
  apply orb_true_iff in H as [H|H]; [left|right; left]; exact H.
Qed.
Lemma auto_field_format27 t : auto_field t -> format27_search false t = true.
Proof.
  intros (a & b & -> & X & Y).
  assert (G : forall a o, (forall c, a <> c +++ "{") -> (a = "" -> o = false) -> format27_search o (a +++ "{}" +++ b) = true).
  2:{ exact (G a false X (fun _ => eq_refl)). }
  clear a X. induction a as [|c r IH]; intros o X O.
  - rewrite (O eq_refl). cbn. destruct b as [|x b]; [reflexivity|]. cbn. destruct (Ascii.eqb x "}") eqn:Q; [|reflexivity].
    apply Ascii.eqb_eq in Q as ->. destruct (Y b eq_refl).
  - cbn [append format27_search]. apply orb_true_iff. right. apply IH.
    + intros c' E. subst r. exact (X (String c c') eq_refl).
    + intros ->. apply not_true_iff_false. intros Q. apply Ascii.eqb_eq in Q as ->. exact (X "" eq_refl).
Qed.
Lemma auto_field_contains t : auto_field t -> contains "{}" t = true.
Proof. intros (a & b & -> & _). apply contains_iff. exists a, b. reflexivity. Qed.
Lemma blank_lstrip w b : blank w -> lstrip (w +++ b) = lstrip b.
Proof.
  induction w as [|c w IH]; intros H; [reflexivity|]. change (lstrip (String c w +++ b)) with (if is_space c then lstrip (w +++ b) else String c (w +++ b)). rewrite (H "" c w eq_refl). apply IH.
  intros a x y E. apply (H (String c a) x y). rewrite E. reflexivity.
Qed.
Lemma text_except_star e line col : except_star e line col -> is_except_star e line col = true.
Proof.
  intros (src & l & w & b & S & P & N & D & Bl). unfold is_except_star, source_line. rewrite S.
  apply Z.ltb_lt in P. rewrite P, N. cbn [option_map]. rewrite D. 
  change (sdrop 6 ("except" +++ w +++ "*" +++ b)) with (w +++ "*" +++ b). rewrite (blank_lstrip _ _ Bl). reflexivity.
Qed.
Lemma counted_first_deco e decos d : In d decos -> counted e d -> exists l, first_deco_line e decos = Some l.
Proof.
  intros I C. unfold first_deco_line. destruct (find _ _) eqn:Q; [eexists; reflexivity|].
  pose proof (find_none _ _ Q _ (in_map lineno _ _ I)) as H. apply negb_false_iff in H. destruct C.
  unfold is_no_line in H. apply existsb_exists in H as (y & J & Y). apply Z.eqb_eq in Y as ->. exact J.
Qed.
Lemma is_kw_arg n kw : attr "arg" kw = VStr n -> kw_arg_in [n] kw = true.
Proof. intros H. unfold kw_arg_in. rewrite H. cbn. rewrite String.eqb_refl. reflexivity. Qed.

(** *** Dotted names *)
Definition piece (man : list (string * string)) (n : pyval) : list (option string) :=
  match n with
  | VNode KAttribute _ _ fs =>
      Some (fstr "attr" fs) :: match name_id (fld "value" fs) with Some i => [Some (resolve_module_name man i)] | None => [] end
  | _ => []
  end.
Definition bare (n : pyval) : Prop := isa KAttribute n \/ isa KName n \/ ctx_node n.
Lemma gan_bare man l : (forall n, In n l -> bare n) -> forall acc, exists b,
  gan_loop man l acc = Ok (fst acc ++ flat_map (piece man) l, b).
Proof.
  induction l as [|n r IH]; intros H acc; [exists (snd acc); cbn; rewrite app_nil_r; destruct acc; reflexivity|].
  assert (E : exists b, gan_step man acc n = Ok (fst acc ++ piece man n, b)).
  { destruct (H n (or_introl eq_refl)) as [K|[K|(k & u & p & K & ->)]].
    - apply isa_node in K as (u & p & fs & ->). eexists. cbn. destruct (name_id (fld "value" fs)); rewrite <- ?app_assoc; reflexivity.
    - apply isa_node in K as (u & p & fs & ->). eexists. cbn. rewrite app_nil_r. reflexivity.
    - destruct K as [<-|[<-|[<-|[]]]]; eexists; cbn; rewrite app_nil_r; reflexivity. }
  destruct E as (b & E). cbn [gan_loop]. rewrite E. cbn [bindr].
  destruct (IH (fun m I => H m (or_intror I)) (fst acc ++ piece man n, b)) as (b' & E'). exists b'. rewrite E'. cbn [fst flat_map].
  rewrite app_assoc. reflexivity.
Qed.
Lemma merge_nil {A} (a : list (list A)) : merge a [] = a.
Proof. destruct a; reflexivity. Qed.

Lemma merge_piece man L c : piece man c = [] -> flat_map (piece man) (List.concat (merge L [[c]])) = flat_map (piece man) (List.concat L).
Proof.
  intros P. destruct L as [|x r]; cbn; [rewrite P; reflexivity|]. rewrite merge_nil, !flat_map_app. cbn [flat_map].
  rewrite P, !app_nil_r. reflexivity.
Qed.
Lemma ctx_piece man c : ctx_node c -> piece man c = [].
Proof. intros (k & u & p & K & ->). destruct K as [<-|[<-|[<-|[]]]]; reflexivity. Qed.
Lemma ctx_levels c : ctx_node c -> levels c = [[c]].
Proof. intros (k & u & p & K & ->). reflexivity. Qed.
Lemma ctx_below c m : ctx_node c -> below m c -> m = c.
Proof. intros (k & u & p & K & ->) B. inversion B; subst; [reflexivity|]. contradiction. Qed.
Lemma join_snoc_eq l x : l <> [] -> join "." (l ++ [x]) = join "." l +++ "." +++ x.
Proof.
  induction l as [|y r IH]; intros N; [contradiction|]. destruct r as [|z r]; [reflexivity|].
  change (join "." ((y :: z :: r) ++ [x])) with (y +++ "." +++ join "." ((z :: r) ++ [x])). rewrite IH by discriminate.
  change (join "." (y :: z :: r)) with (y +++ "." +++ join "." (z :: r)). rewrite !app_assoc_s. reflexivity.
Qed.
Lemma dotted_kind b r n d : dotted_name b r n d -> isa KAttribute n.
Proof. intros []; reflexivity. Qed.

Lemma dotted_levels man b r n d : dotted_name b r n d -> resolve_module_name man b = r ->
  (forall m, below m n -> bare m) /\ exists l, d = join "." (r :: l) /\ flat_map (piece man) (walk n) = rev (map Some (r :: l)).
Proof.
  intros D A. induction D as [u p u' p' c c' x C C'|u p m d c x C D IH].
  - split.
    + intros m B. inversion B as [_|k0 u0 p0 fs0 f y I By|]; subst; [left; reflexivity|].
      destruct I as [E|[E|[E|[]]]]; injection E as <- <-.
      * inversion By as [_|k0 u0 p0 fs0 f y I By'|]; subst; [right; left; reflexivity|].
        destruct I as [E|[E|[]]]; injection E as <- <-; [inversion By'; discriminate|].
        rewrite (ctx_below _ _ C' By'). right. right. exact C'.
      * inversion By; discriminate.
      * rewrite (ctx_below _ _ C By). right. right. exact C.
    + exists [x]. split; [reflexivity|]. unfold walk. cbn [levels map snd merge_all]. 
      rewrite (ctx_levels _ C), (ctx_levels _ C'). cbn. rewrite A.
      rewrite (ctx_piece _ _ C), (ctx_piece _ _ C'). reflexivity.
  - destruct IH as (Bm & l & -> & E). split.
    + intros y B. inversion B as [_|k0 u0 p0 fs0 f z I By|]; subst; [left; reflexivity|].
      destruct I as [Q|[Q|[Q|[]]]]; injection Q as <- <-; [exact (Bm _ By)|inversion By; discriminate|].
      rewrite (ctx_below _ _ C By). right. right. exact C.
    + exists (l ++ [x]). split; [symmetry; apply (join_snoc_eq (r :: l)); discriminate|].
      unfold walk. cbn [levels map snd merge_all]. rewrite (ctx_levels _ C). cbn [merge List.concat flat_map app piece].
      rewrite (merge_piece _ _ _ (ctx_piece man c C)). change (List.concat (levels m)) with (walk m). rewrite E.
      assert (Nm : name_id m = None). { apply dotted_kind, isa_node in D as (u1 & p1 & fs1 & ->). reflexivity. }
      change (fld "value" [("value", m); ("attr", VStr x); ("ctx", c)]) with m. rewrite Nm.
      change (Some r :: map Some (l ++ [x])) with (map Some ((r :: l) ++ [x])). rewrite (map_app _ (r :: l)), (rev_app_distr (map Some (r :: l))). reflexivity.
Qed.
Lemma dotted_name_attr man b r n d : dotted_name b r n d -> resolve_module_name man b = r ->
  exists l, get_attribute_name man n = Ok (map Some (r :: l)) /\ dotted (map Some (r :: l)) = d.
Proof.
  intros D A. destruct (dotted_levels man b r n d D A) as (B & l & -> & E). exists l.
  unfold get_attribute_name. destruct (gan_bare man (walk n) (fun m I => B m (proj1 (walk_below n m) I)) ([], false)) as (f & ->).
  cbn [mapr fst app]. rewrite E, rev_involutive. split; [reflexivity|]. unfold dotted.
  clear. f_equal. generalize (r :: l). clear. intros l. induction l as [|x r IH]; [reflexivity|]. cbn. rewrite IH. reflexivity.
Qed.
Lemma dotted_name_dotted man b r n d : dotted_name b r n d -> resolve_module_name man b = r -> dotted_attr man n = Ok d.
Proof.
  intros D A. destruct (dotted_name_attr man b r n d D A) as (l & E & <-). unfold dotted_attr. rewrite E. reflexivity.
Qed.

(** *** Directives *)
Lemma span_all f m r : (forall p x q, m = p +++ String x q -> f x = true) -> match r with String c _ => f c = false | EmptyString => True end ->
  span f (m +++ r) = (m, r).
Proof.
  intros H R. induction m as [|c m IH].
  - destruct r as [|c r]; [reflexivity|]. cbn. rewrite R. reflexivity.
  - change (String c m +++ r) with (String c (m +++ r)). cbn [span]. rewrite (H "" c m eq_refl).
    rewrite IH; [reflexivity|]. intros p x q E. apply (H (String c p) x q). rewrite E. reflexivity.
Qed.
Lemma directive_consumes s g rest : directive_at s = Some (g, rest) ->
  exists q, s = q +++ rest /\ (forall a b, q = a +++ String "%" b -> False).
Proof.
  unfold directive_at. destruct (span is_dir_class s) as [m r] eqn:S. apply span_split in S as (-> & All).
  assert (No : forall m1 m2, m = m1 +++ m2 -> forall a b, m1 = a +++ String "%" b -> False).
  { intros m1 m2 -> a b ->. assert (C := All a "%"%char (b +++ m2)). rewrite app_assoc_s in C. specialize (C eq_refl). discriminate. }
  assert (Back : match last_digit m with Some (d, r') => Some (chr d, r' +++ r) | None => None end = Some (g, rest) ->
                 exists q, m +++ r = q +++ rest /\ (forall a b, q = a +++ String "%" b -> False)).
  { destruct (last_digit m) as [[d r']|] eqn:LD; [|discriminate]. intros E. injection E as <- <-.
    apply last_digit_split in LD as (m1 & -> & _). exists (m1 +++ chr d). split.
    - rewrite !app_assoc_s. reflexivity.
    - apply (No _ r'). rewrite app_assoc_s. reflexivity. }
  destruct r as [|c r']; [exact Back|]. destruct (is_word c) eqn:W; [|exact Back]. intros E. injection E as <- <-.
  exists (m +++ chr c). split; [rewrite app_assoc_s; reflexivity|]. intros a b E.
  clear - E W No. specialize (No m "" (eq_sym (app_nil_s m))). revert m E No. induction a as [|y a IH]; intros m E No.
  - destruct m as [|z m]; cbn in E; injection E as -> E; [discriminate|]. exact (No "" m eq_refl).
  - destruct m as [|z m]; cbn in E; injection E as -> E; [destruct a; discriminate|].
    apply (IH m E). intros a0 b0 ->. exact (No (String y a0) b0 eq_refl).
Qed.
Lemma percent_rest q rest : (forall a b, q = a +++ String "%" b -> False) -> forall a z,
  a +++ String "%" z = q +++ rest -> exists a', rest = a' +++ String "%" z.
Proof.
  induction q as [|c q IH]; intros No a z E; [exists a; symmetry; exact E|]. destruct a as [|y a]; cbn in E; injection E as E0 E.
  - exfalso. apply (No "" q). rewrite <- E0. reflexivity.
  - apply (IH (fun a0 b0 H => No (String c a0) b0 (f_equal (String c) H)) a z E).
Qed.
Lemma length_app_s a b : String.length (a +++ b) = (String.length a + String.length b)%nat.
Proof. induction a as [|c a IH]; [reflexivity|]. change (String c a +++ b) with (String c (a +++ b)).
  cbn [String.length]. rewrite IH. reflexivity. Qed.

Lemma find_n_percent d : forall n t a m c b, (String.length t <= n)%nat -> t = a +++ "%" +++ m +++ d +++ b -> d = chr c ->
  is_word c = true -> is_dir_class c = false -> (forall p x q, m = p +++ String x q -> is_dir_class x = true) ->
  In d (find_directives_n n t).
Proof.
  induction n as [|n IH]; intros t a m c b L E D W NC M.
  - subst t. destruct a; cbn in L; lia.
  - destruct a as [|y a].
    + rewrite E. change ("" +++ "%" +++ m +++ d +++ b) with (String "%" (m +++ d +++ b)). cbn [find_directives_n].
      change (Ascii.eqb "%" "%") with true. cbn iota. unfold directive_at. rewrite D. change (chr c +++ b) with (String c b).
      rewrite (span_all is_dir_class m (String c b) M NC). rewrite W. left. reflexivity.
    + change (String y a +++ "%" +++ m +++ d +++ b) with (String y (a +++ "%" +++ m +++ d +++ b)) in E. rewrite E in *. cbn [String.length] in L.
      cbn [find_directives_n]. destruct (Ascii.eqb y "%") eqn:Y.
      * destruct (directive_at (a +++ "%" +++ m +++ d +++ b)) as [[g rest]|] eqn:DA.
        -- right. destruct (directive_consumes _ _ _ DA) as (q & Q & No). destruct (percent_rest q rest No a _ Q) as (a' & R).
           apply (IH rest a' m c b); try assumption. rewrite Q, length_app_s in L. lia.
        -- eapply IH; try reflexivity; try eassumption. lia.
      * eapply IH; try reflexivity; try eassumption. lia.
Qed.
Lemma find_letter t d : letter_directive t d -> In d (find_directives t).
Proof.
  intros ((a & m & c & b & E & D & W & M) & ND). specialize (ND c D). apply (find_n_percent d _ t a m c b); try assumption.
  - apply le_n.
  - clear - W ND. destruct c as [[] [] [] [] [] [] [] []]; first [discriminate W|discriminate ND|reflexivity].
  - intros p x q Q. specialize (M p x q Q). unfold is_dir_class. destruct M as [->|[->|M]]; [reflexivity|apply Bool.orb_true_iff; left; apply Bool.orb_true_r|].
    apply Bool.orb_true_iff. right. apply existsb_exists. exists x. split; [exact M|apply Ascii.eqb_refl].
Qed.
