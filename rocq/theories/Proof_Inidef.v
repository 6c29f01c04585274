(** Config files with sections [DEFAULT]. Lemmas for C65. *)
From Verif Require Import PyBase PyLemmas Utility RulesData Rules Config Ini Spec_Base Spec_Utility Spec_Config Spec_Ini Proof_Utility Proof_Config Proof_Formats Proof_Ini.

Lemma assoc_set {A} k (v : A) l o : assoc o (dict_set k v l) = if String.eqb o k then Some v else assoc o l.
Proof. apply assoc_dict_set. Qed.
Lemma assoc_app {A} o (a b : list (string * A)) : assoc o (a ++ b) = match assoc o a with Some v => Some v | None => assoc o b end.
Proof. induction a as [|[k v] a IH]; [reflexivity|]. cbn [app assoc]. destruct (String.eqb o k); [reflexivity|exact IH]. Qed.
Definition indef (done : list (string * options)) (D : options) (opt : string) (ind : nat) (added : list (string * string)) : rstate :=
  mkR (mkIni done D) (Some "DEFAULT") opt ind added false.
Section Def.
Variable nv : bool.
Variable done : list (string * options).
Hypothesis Hn : ~ In "DEFAULT" (map fst done).
Lemma cursect_def D : cursect (mkIni done D) "DEFAULT" = D.
Proof. unfold cursect. cbn [i_sections]. apply assoc_None in Hn. rewrite Hn. reflexivity. Qed.
Lemma w_cursect_def D D' : w_cursect (mkIni done D) "DEFAULT" D' = mkIni done D'.
Proof. unfold w_cursect. cbn [i_sections]. apply assoc_None in Hn. rewrite Hn. reflexivity. Qed.

Lemma def_silent_bare D opt ind added ls : assoc opt D = Some INone -> Forall silent ls ->
  read_lines nv (indef done D opt ind added) ls = inl (indef done D opt ind added).
Proof.
  intros Ho F. induction F as [|l ls [H|H] F IH]; [reflexivity|..]; cbn [read_lines].
  - rewrite read_comment by exact H. exact IH.
  - replace (read_line nv (indef done D opt ind added) l) with (inl ini_error (indef done D opt ind added)); [exact IH|].
    unfold read_line. rewrite (strip_gap l H). cbn [is_comment indef r_sect r_opt r_ini]. change (String.eqb "" "") with true. cbv iota.
    destruct (String.eqb opt ""); [reflexivity|]. rewrite cursect_def, Ho. reflexivity.
Qed.
Lemma def_following opt ind added ls vs : opt <> "" -> following ind ls vs -> forall D k, assoc opt D = Some (ILines k) ->
  exists D', assoc opt D' = Some (ILines (k ++ vs)) /\ (forall o, o <> opt -> assoc o D' = assoc o D) /\
    read_lines nv (indef done D opt ind added) ls = inl (indef done D' opt ind added).
Proof.
  intros Hne F. apply String.eqb_neq in Hne.
  induction F as [|l ls vs H F IH|l ls vs H F IH|w v w' ls vs Hw Hl Hv Hw' F IH]; intros D k E; cbn [read_lines].
  - exists D. rewrite app_nil_r. repeat split; assumption.
  - rewrite read_comment by exact H. apply IH. exact E.
  - unfold read_line. rewrite (strip_gap l H). cbn [is_comment indef r_sect r_opt r_ini r_indent r_added r_bad]. change (String.eqb "" "") with true. cbv iota. rewrite Hne.
    rewrite cursect_def, E, w_cursect_def. fold (indef done (dict_set opt (ILines (k ++ [""])) D) opt ind added).
    destruct (IH (dict_set opt (ILines (k ++ [""])) D) (k ++ [""])) as (D' & A & B & R); [rewrite assoc_set, String.eqb_refl; reflexivity|].
    exists D'. split; [rewrite A, <- app_assoc; reflexivity|]. split; [|exact R]. intros o Ho. rewrite (B o Ho), assoc_set. apply String.eqb_neq in Ho. rewrite Ho. reflexivity.
  - assert (Hs := Hv). destruct Hs as (Hs & _). destruct (content_fresh v Hv) as [C1 C2]. unfold read_line.
    rewrite (strip_solid w v w' Hw Hs Hw'), C1, C2. cbn [indef r_sect r_opt r_ini r_indent r_added r_bad]. rewrite Hne, (indent_solid w v w' Hw Hs).
    replace (ind <? String.length w)%nat with true by (symmetry; apply Nat.ltb_lt; exact Hl).
    rewrite cursect_def, E, w_cursect_def. fold (indef done (dict_set opt (ILines (k ++ [v])) D) opt ind added).
    destruct (IH (dict_set opt (ILines (k ++ [v])) D) (k ++ [v])) as (D' & A & B & R); [rewrite assoc_set, String.eqb_refl; reflexivity|].
    exists D'. split; [rewrite A, <- app_assoc; reflexivity|]. split; [|exact R]. intros o Ho. rewrite (B o Ho), assoc_set. apply String.eqb_neq in Ho. rewrite Ho. reflexivity.
Qed.
(** The options read so far in [DEFAULT]. *)
Definition def_ok (seen : list string) (added : list (string * string)) : Prop :=
  forall p, In p added -> In (fst p) (map fst done) \/ fst p = "DEFAULT" /\ In (snd p) seen.
Lemma def_opens seen D opt ind added line k name v : def_ok seen added -> (opt = "" \/ (k <= ind)%nat) ->
  ~ In (lower name) seen -> opens nv line k name v ->
  read_line nv (indef done D opt ind added) line =
    inl (indef done (dict_set (lower name) (match v with Some v => ILines [v] | None => INone end) D) (lower name) k (("DEFAULT", lower name) :: added)).
Proof.
  intros Ha Hi Ho (O1 & O2 & O3 & O4 & O5 & O6 & O7).
  unfold read_line. rewrite O1, O2, O3, O4, O5. cbn [indef r_sect r_opt r_ini r_indent r_added r_bad].
  assert (E : existsb (pair_eqb ("DEFAULT", lower (rstrip name))) added = false).
  { rewrite O7. apply existsb_pair. intros p Hp ->. apply Ha in Hp. cbn [fst snd] in Hp. destruct Hp as [Hp|[_ Hp]]; [apply Hn; exact Hp|apply Ho; exact Hp]. }
  rewrite E. apply String.eqb_neq in O6. rewrite O6, O7, cursect_def, w_cursect_def.
  destruct (String.eqb_spec opt ""); [reflexivity|]. destruct Hi as [|Hi]; [congruence|].
  replace (ind <? k)%nat with false by (symmetry; apply Nat.ltb_ge; exact Hi). reflexivity.
Qed.
(** What the defaults say behind options [es]. *)
Definition behind (D : options) (es : list (string * option string)) (D' : options) : Prop :=
  forall o, option_map value_of (assoc o D') = match assoc o es with Some v => Some v | None => option_map value_of (assoc o D) end.
Lemma def_entry seen k D opt ind added ls e : def_ok seen added -> (opt = "" \/ (k <= ind)%nat) -> entry k ls e -> ~ In (fst e) seen ->
  (nv = true \/ snd e <> None) ->
  exists D' added', behind D [e] D' /\ def_ok (seen ++ [fst e]) added' /\
    read_lines nv (indef done D opt ind added) ls = inl (indef done D' (fst e) k added').
Proof.
  intros Ha Hi E. assert (Ad : forall x, def_ok (seen ++ [x]) (("DEFAULT", x) :: added)).
  { intros x p [<-|Hp]; cbn [fst snd]; [right; split; [reflexivity|apply in_or_app; right; left; reflexivity]|].
    destruct (Ha p Hp) as [A|[A B]]; [left; exact A|right; split; [exact A|apply in_or_app; left; exact B]]. }
  destruct E as [w name a d b v w' ls vs Hw <- Hname Hgap Hd Hb Hv Hl Hw' F|w name w' ls Hw <- Hname Hw' F]; cbn [fst snd]; intros Ho Hnv.
  - cbn [read_lines]. rewrite (def_opens seen D opt ind added _ (String.length w) name (Some v) Ha Hi Ho (value_line nv w name a d b v w' Hw Hname Hgap Hd Hb Hv Hw')).
    assert (NE : lower name <> "") by (intros C; apply lower_empty in C; revert C; apply Hname).
    destruct (def_following (lower name) (String.length w) (("DEFAULT", lower name) :: added) ls vs NE F (dict_set (lower name) (ILines [v]) D) [v]) as (D' & A & B & R);
      [rewrite assoc_set, String.eqb_refl; reflexivity|].
    exists D', (("DEFAULT", lower name) :: added). split; [|split; [apply Ad|exact R]].
    intros o. cbn [assoc]. destruct (String.eqb_spec o (lower name)) as [->|N]; [rewrite A; reflexivity|].
    rewrite (B o N), assoc_set. apply String.eqb_neq in N. rewrite N. reflexivity.
  - destruct Hnv as [Hnv|C]; [|congruence].
    cbn [read_lines]. rewrite (def_opens seen D opt ind added _ (String.length w) name None Ha Hi Ho ltac:(rewrite Hnv; exact (bare_line w name w' Hw Hname Hw'))).
    exists (dict_set (lower name) INone D), (("DEFAULT", lower name) :: added). split; [|split; [apply Ad|]].
    + intros o. cbn [assoc]. rewrite assoc_set. destruct (String.eqb o (lower name)); reflexivity.
    + apply def_silent_bare; [rewrite assoc_set, String.eqb_refl; reflexivity|exact F].
Qed.
Lemma behind_app D a D1 b D2 : NoDup (map fst (a ++ b)) -> behind D a D1 -> behind D1 b D2 -> behind D (a ++ b) D2.
Proof.
  intros Nd A B o. rewrite (B o), (A o), assoc_app. destruct (assoc o a) as [v|] eqn:Ea; [|reflexivity].
  destruct (assoc o b) as [v'|] eqn:Eb; [|reflexivity]. exfalso. rewrite map_app in Nd. apply assoc_In in Ea, Eb.
  apply (in_map fst) in Ea, Eb. cbn [fst] in *. revert Nd Ea Eb. generalize (map fst a) as x, (map fst b) as y. clear. intros x y Nd A B.
  induction x as [|z x IH]; [contradiction|]. cbn [app] in Nd. inversion Nd as [|? ? N1 N2]; subst. destruct A as [->|A]; [apply N1, in_or_app; right; exact B|]. exact (IH N2 A).
Qed.
Lemma def_entries k lss es : Forall2 (entry k) lss es -> (nv = true \/ forall e, In e es -> snd e <> None) ->
  forall seen D opt ind added, def_ok seen added -> (opt = "" \/ (k <= ind)%nat) -> NoDup (seen ++ map fst es) ->
  exists D' opt' ind' added', behind D es D' /\ def_ok (seen ++ map fst es) added' /\
    read_lines nv (indef done D opt ind added) (List.concat lss) = inl (indef done D' opt' ind' added').
Proof.
  intros F. induction F as [|ls e lss es E F IH]; intros Hnv seen D opt ind added Ha Hi Hd.
  - exists D, opt, ind, added. cbn [map]. rewrite app_nil_r. split; [intros o; reflexivity|]. split; [exact Ha|reflexivity].
  - cbn [map] in Hd. destruct (def_entry seen k D opt ind added ls e Ha Hi E) as (D1 & added1 & B & A & R).
    + apply NoDup_remove_2 in Hd. intros C. apply Hd. apply in_or_app. left. exact C.
    + destruct Hnv as [->|Hnv]; [left; reflexivity|right; apply Hnv; left; reflexivity].
    + destruct (IH ltac:(destruct Hnv as [->|Hnv]; [left; reflexivity|right; intros; apply Hnv; right; assumption]) (seen ++ [fst e]) D1 (fst e) k added1 A (or_intror (le_n _)))
        as (D2 & opt2 & ind2 & added2 & B2 & A2 & R2).
      { rewrite <- app_assoc. exact Hd. }
      exists D2, opt2, ind2, added2. cbn [map]. rewrite <- app_assoc in A2. split; [|split; [exact A2|cbn [List.concat]; rewrite read_app, R; exact R2]].
      apply (behind_app D [e] D1 es D2); [|exact B|exact B2]. cbn [app map]. revert Hd. generalize (fst e :: map fst es). clear.
      intros l H. induction seen as [|x seen IH]; [exact H|]. inversion H; subst. apply IH. assumption.
Qed.
Lemma def_header D st seen tail : between seen done D st -> sall (fun c => negb (Ascii.eqb c "]")) tail = true ->
  read_line nv st ("[" +++ "DEFAULT" +++ "]" +++ tail) = inl (indef done D "" 0 (r_added st)).
Proof.
  intros (E & B & _) T. destruct (header_line "DEFAULT" tail ltac:(discriminate) T) as (H1 & H2 & H3 & H4). unfold read_line. rewrite H1, H2, H3, H4.
  assert (K : has_key "DEFAULT" (i_sections (r_ini st)) = false) by (rewrite E; unfold has_key; cbn [i_sections]; apply assoc_None in Hn; rewrite Hn; reflexivity).
  rewrite K. change (String.eqb "DEFAULT" "DEFAULT") with true. cbv iota. rewrite E, B.
  destruct (match r_sect st with Some n => if String.eqb (r_opt st) "" then None else Some n | None => None end); [|reflexivity].
  destruct (r_indent st); reflexivity.
Qed.
Lemma def_block seen D st ls es : between seen done D st -> block ls ("DEFAULT", es) ->
  NoDup (seen ++ map fst es) -> (nv = true \/ forall e, In e es -> snd e <> None) ->
  exists D' st', behind D es D' /\ between (seen ++ map fst es) done D' st' /\ read_lines nv st ls = inl st'.
Proof.
  intros B K. remember ("DEFAULT", es) as s eqn:Es. destruct K as [k name tail pre lss es' Hl N Ht T Fp Fe]. injection Es as -> ->. intros Hnd Hnv.
  cbn [read_lines]. rewrite (def_header D st seen tail B T). rewrite read_app, read_silent by (exact Fp || reflexivity).
  destruct B as (_ & _ & Ad).
  destruct (def_entries k lss es Fe Hnv seen D "" 0 (r_added st) Ad (or_introl eq_refl) Hnd) as (D' & opt & ind & added & V & A & R).
  rewrite R. exists D', (indef done D' opt ind added). split; [exact V|]. split; [|reflexivity].
  split; [reflexivity|]. split; [reflexivity|exact A].
Qed.
End Def.

Lemma mixed_blocks nv lss secs : Forall2 block lss secs -> forall seen done D st, between seen done D st ->
  ~ In "DEFAULT" (map fst done) -> NoDup (map fst done ++ map fst (others secs)) -> (forall s, In s (others secs) -> NoDup (map fst (snd s))) ->
  NoDup (seen ++ map fst (defaults_said secs)) -> (nv = true \/ forall s e, In s secs -> In e (snd s) -> snd e <> None) ->
  exists done' D' st' seen', said_sections done' = said_sections done ++ others secs /\ behind D (defaults_said secs) D' /\
    between seen' done' D' st' /\ read_lines nv st (List.concat lss) = inl st'.
Proof.
  intros F. induction F as [|ls s lss secs K F IH]; intros seen done D st B Hn Nd Hs Hd Hnv.
  - exists done, D, st, seen. cbn [others filter defaults_said flat_map]. rewrite app_nil_r. split; [reflexivity|]. split; [intros o; reflexivity|]. split; [exact B|reflexivity].
  - assert (Hnv' : nv = true \/ forall s e, In s secs -> In e (snd s) -> snd e <> None)
      by (destruct Hnv as [->|Hnv]; [left; reflexivity|right; intros x e Hx; apply Hnv; right; exact Hx]).
    assert (Hnv1 : nv = true \/ forall e, In e (snd s) -> snd e <> None)
      by (destruct Hnv as [->|Hnv]; [left; reflexivity|right; intros e He; apply (Hnv s); [left; reflexivity|exact He]]).
    unfold others, defaults_said in *. cbn [filter] in *. destruct (is_default s) eqn:I; cbn [negb] in *.
    + destruct s as [n es]. unfold is_default in I. cbn [fst] in I. apply String.eqb_eq in I. subst n. cbn [flat_map snd] in *. rewrite map_app in Hd.
      destruct (def_block nv done Hn seen D st ls es B K) as (D1 & st1 & B1 & Bt & R); [|exact Hnv1|].
      { rewrite app_assoc in Hd. revert Hd. generalize (seen ++ map fst es) as x, (map fst (flat_map snd (filter is_default secs))) as y. clear.
        intros x y H. induction y as [|z y IH]; [rewrite app_nil_r in H; exact H|]. apply NoDup_remove_1 in H. exact (IH H). }
      destruct (IH (seen ++ map fst es) done D1 st1 Bt Hn Nd Hs) as (done2 & D2 & st2 & seen2 & V2 & B2 & T2 & R2); [rewrite <- app_assoc; exact Hd|exact Hnv'|].
      exists done2, D2, st2, seen2. split; [exact V2|]. split; [|split; [exact T2|cbn [List.concat]; rewrite read_app, R; exact R2]].
      apply (behind_app D es D1 _ D2); [|exact B1|exact B2]. rewrite map_app. revert Hd. generalize (map fst es ++ map fst (flat_map snd (filter is_default secs))). clear.
      intros l H. induction seen as [|x seen IH]; [exact H|]. inversion H; subst. apply IH. assumption.
    + unfold is_default in I. apply String.eqb_neq in I. cbn [map] in Nd.
      destruct (read_block seen nv done D st ls s B K) as (os & st1 & V & B1 & R).
      * apply NoDup_remove_2 in Nd. intros C. apply Nd, in_or_app. left. exact C.
      * exact I.
      * apply Hs. left. reflexivity.
      * exact Hnv1.
      * destruct (IH seen (done ++ [(fst s, os)]) D st1 B1) as (done2 & D2 & st2 & seen2 & V2 & B2 & T2 & R2).
        -- rewrite map_app. intros C. apply in_app_or in C. destruct C as [C|[C|[]]]; [exact (Hn C)|exact (I C)].
        -- rewrite map_app, <- app_assoc. exact Nd.
        -- intros x Hx. apply Hs. right. exact Hx.
        -- exact Hd.
        -- exact Hnv'.
        -- exists done2, D2, st2, seen2. split; [|split; [exact B2|split; [exact T2|cbn [List.concat]; rewrite read_app, R; exact R2]]].
           rewrite V2. unfold said_sections. rewrite map_app, <- app_assoc. cbn [map fst snd app]. rewrite V. destruct s; reflexivity.
Qed.
Lemma mixed_document nv defs ls secs t : document ls secs -> separate secs -> text_of ls t ->
  (nv = true \/ forall s e, In s secs -> In e (snd s) -> snd e <> None) ->
  exists i, ini_read nv defs (readlines (universal t)) = inl i /\ said i = others secs /\ behind defs (defaults_said secs) (i_defaults i).
Proof.
  intros D ((D1 & D2 & D3) & D4) T Hnv. unfold ini_read. rewrite (read_text nv ls t T (document_one ls secs D)).
  destruct D as (pre & lss & Fp & Fb & ->). rewrite read_app, read_silent by (exact Fp || reflexivity).
  destruct (mixed_blocks nv lss secs Fb [] [] defs (mkR (mkIni [] defs) None "" 0 [] false)) as (done & D' & st & seen & V & Bh & (E & B & _) & R); try assumption.
  - split; [reflexivity|]. split; [reflexivity|]. intros p [].
  - intros [].
  - rewrite R, B. exists (r_ini st). split; [reflexivity|]. rewrite E. split; [exact V|exact Bh].
Qed.
Lemma others_default cpus i es ds : assoc "vermin" (said i) = Some (escaped es) ->
  behind (map (fun p => (fst p, IText (snd p))) (default_args cpus)) (escaped ds) (i_defaults i) ->
  alike (vermin_view i) (section_with cpus es ds).
Proof.
  intros H D o Ho. destruct (in_option_names o Ho) as (Lo & [] & Hd). specialize (Hd cpus).
  destruct (assoc o (default_args cpus)) as [d|] eqn:Ed; [|discriminate]. clear Hd.
  assert (A := D o). rewrite (assoc_map IText), Ed in A. unfold escaped in A. rewrite (assoc_map (option_map escape)) in A. cbn [option_map value_of] in A.
  split.
  - cbn [vermin_view sec_get section_with section_of]. unfold ini_get. rewrite Lo, (lookup_said i "vermin" (escaped es) H). unfold escaped. rewrite (assoc_map (option_map escape)), assoc_app.
    destruct (assoc o es) as [[v|]|]; cbn [option_map]; [rewrite interpolate_escape by lia; reflexivity|reflexivity|].
    rewrite A. destruct (assoc o ds) as [[v|]|]; cbn [option_map]; [rewrite interpolate_escape by lia; reflexivity|reflexivity|].
    rewrite Ed. rewrite <- (default_texts cpus o d Ed) at 2. rewrite interpolate_escape; [reflexivity|].
    rewrite (default_texts cpus o d Ed). lia.
  - cbn [vermin_view sec_default section_with]. rewrite Ed. destruct (assoc o (i_defaults i)) as [v|]; cbn [option_map] in A;
      destruct (assoc o ds) as [w|]; cbn [option_map] in A; congruence.
Qed.
Lemma default_written cpus re_ok ls secs es ds t : document ls secs -> separate secs -> In ("vermin", escaped es) secs -> defaults_said secs = escaped ds ->
  text_of ls t -> parse_file cpus re_ok (cfg_of_text cpus t) = parse_file cpus re_ok (CfgSection (section_with cpus es ds)).
Proof.
  intros D Di Hv Hd T. unfold cfg_of_text.
  destruct (mixed_document true (map (fun p => (fst p, IText (snd p))) (default_args cpus)) ls secs t D Di T (or_introl eq_refl)) as (i & R & S & Df).
  rewrite R. assert (A : assoc "vermin" (said i) = Some (escaped es)).
  { rewrite S. apply In_assoc; [apply Di|]. unfold others. apply filter_In. split; [exact Hv|reflexivity]. }
  assert (K : has_key "vermin" (i_sections i) = true) by (rewrite assoc_said in A; unfold has_key; destruct (assoc "vermin" (i_sections i)); [reflexivity|discriminate]).
  rewrite K. rewrite Hd in Df. cbn [parse_file]. rewrite (parse_alike cpus re_ok _ _ (others_default cpus i es ds A Df)). reflexivity.
Qed.

(** ** Where every value tells something *)
Lemma default_merged cpus re_ok es ds :
  (forall o v, In o (map fst ds) -> assoc o (es ++ ds) = Some (Some v) -> telling o v) ->
  parse_section cpus re_ok (section_with cpus es ds) = parse_section cpus re_ok (section_of cpus (es ++ ds)).
Proof.
  intros H.
  assert (Get : forall o, sec_get (section_with cpus es ds) o = sec_get (section_of cpus (es ++ ds)) o) by reflexivity.
  assert (Df : forall o, ~ In o (map fst ds) -> sec_default (section_with cpus es ds) o = sec_default (section_of cpus (es ++ ds)) o).
  { intros o N. cbn [section_with section_of sec_default]. apply assoc_None in N. rewrite N. reflexivity. }
  assert (V : forall o, In o (map fst ds) -> forall v, sec_get (section_of cpus (es ++ ds)) o = Ok (Some v) -> telling o v).
  { intros o I v E. apply (H o v I). cbn [section_of sec_get] in E. destruct (assoc o (es ++ ds)) as [w|] eqn:A; [congruence|].
    exfalso. apply assoc_None in A. apply A. rewrite map_app. apply in_or_app. right. exact I. }
  assert (B : forall o, mem o ["exclusions"; "exclusion_regex"; "backports"; "features"; "targets"; "format"; "verbose"; "processes"] = false ->
            getbool (section_with cpus es ds) o = getbool (section_of cpus (es ++ ds)) o).
  { intros o M. unfold getbool. rewrite Get. destruct (sec_get (section_of cpus (es ++ ds)) o) as [[v|]|] eqn:E; try reflexivity.
    destruct (boolean_state v) eqn:Bs; [reflexivity|]. destruct (in_dec string_dec o (map fst ds)) as [I|N]; [|rewrite (Df o N); reflexivity].
    exfalso. destruct (V o I v E) as [T|[[T _]|T]].
    - cut (mem o ["exclusions"; "exclusion_regex"; "backports"; "features"; "targets"; "format"; "verbose"; "processes"] = true); [congruence|].
      apply mem_In. change ["exclusions"; "exclusion_regex"; "backports"; "features"; "targets"; "format"; "verbose"; "processes"] with (["exclusions"; "exclusion_regex"; "backports"; "features"; "targets"; "format"] ++ ["verbose"; "processes"]). apply in_or_app. left. exact T.
    - cut (mem o ["exclusions"; "exclusion_regex"; "backports"; "features"; "targets"; "format"; "verbose"; "processes"] = true); [congruence|].
      apply mem_In. change ["exclusions"; "exclusion_regex"; "backports"; "features"; "targets"; "format"; "verbose"; "processes"] with (["exclusions"; "exclusion_regex"; "backports"; "features"; "targets"; "format"] ++ ["verbose"; "processes"]). apply in_or_app. right. exact T.
    - unfold boolean_state in Bs. destruct (mem (lower v) ["1"; "yes"; "true"; "on"]) eqn:M1; [discriminate|].
      destruct (mem (lower v) ["0"; "no"; "false"; "off"]) eqn:M2; [discriminate|].
      change ["1"; "yes"; "true"; "on"; "0"; "no"; "false"; "off"] with (["1"; "yes"; "true"; "on"] ++ ["0"; "no"; "false"; "off"]) in T.
      apply in_app_or in T. destruct T as [T|T]; apply mem_In in T; congruence. }
  assert (U : forall o, In o ["verbose"; "processes"] -> getuint (section_with cpus es ds) o = getuint (section_of cpus (es ++ ds)) o).
  { intros o Mo. unfold getuint. rewrite Get. destruct (sec_get (section_of cpus (es ++ ds)) o) as [[v|]|] eqn:E; try reflexivity.
    destruct (String.eqb_spec v "") as [->|]; [|reflexivity]. destruct (in_dec string_dec o (map fst ds)) as [I|N]; [|rewrite (Df o N); reflexivity].
    exfalso. destruct (V o I "" E) as [T|[[_ T]|T]]; [|congruence|].
    - destruct Mo as [<-|[<-|[]]]; cbn in T; intuition discriminate.
    - cbn in T. intuition discriminate. }
  assert (L : forall o, getstringlist (section_with cpus es ds) o = getstringlist (section_of cpus (es ++ ds)) o) by reflexivity.
  unfold parse_section. rewrite !B by reflexivity. rewrite !U by (cbn; auto). rewrite !L, Get. reflexivity.
Qed.
Lemma default_both cpus re_ok ls secs es ds t : document ls secs -> separate secs -> In ("vermin", escaped es) secs -> defaults_said secs = escaped ds ->
  text_of ls t ->
  parse_file cpus re_ok (cfg_of_text cpus t) = parse_file cpus re_ok (CfgSection (section_with cpus es ds)) /\
  ((forall o v, In o (map fst ds) -> assoc o (es ++ ds) = Some (Some v) -> telling o v) ->
   parse_file cpus re_ok (cfg_of_text cpus t) = parse_file cpus re_ok (CfgSection (section_of cpus (es ++ ds)))).
Proof.
  intros D S I E T. assert (W := default_written cpus re_ok ls secs es ds t D S I E T). split; [exact W|]. intros H. rewrite W.
  cbn [parse_file]. rewrite (default_merged cpus re_ok es ds H). reflexivity.
Qed.
Lemma default_no_section cpus re_ok ls secs t : document ls secs -> separate secs -> text_of ls t -> ~ In "vermin" (map fst secs) ->
  parse_file cpus re_ok (cfg_of_text cpus t) = None.
Proof.
  intros D Di T N. unfold cfg_of_text.
  destruct (mixed_document true (map (fun p => (fst p, IText (snd p))) (default_args cpus)) ls secs t D Di T (or_introl eq_refl)) as (i & R & S & Df).
  rewrite R. assert (A : assoc "vermin" (said i) = None).
  { rewrite S. apply assoc_None. intros C. apply N. apply in_map_iff in C. destruct C as (s & E & I). unfold others in I. apply filter_In in I.
    apply in_map_iff. exists s. split; [exact E|apply I]. }
  rewrite assoc_said in A. unfold has_key. destruct (assoc "vermin" (i_sections i)); [discriminate|reflexivity].
Qed.
