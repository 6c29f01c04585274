(** The objects behind Config: which sets, lists and format objects are shared
    (config.py:15-59, 296-432; formats/format.py:3-18). Refines the value model of Config.v, where
    a configuration is a record of values. *)
From Verif Require Import PyBase Utility RulesData Rules Config.

(** One Config object. Scalars, exclusions and exclusion regexes live in [h_val] (no two objects
    ever share the latter two sets, config.py:49-50); the backport set, feature set, target list
    and format object are references. The corresponding fields of [h_val] are not used. *)
Record hconf : Type := mkH {
  h_val : config;
  h_bps : nat;
  h_feats : nat;
  h_tgts : nat;
  h_fmt : nat
}.

(** A format object: its class and the Config of its last [set_config] (formats/format.py:6-8). *)
Record hfmt : Type := mkF { f_kind : fmt; f_config : option nat }.

Record heap : Type := mkHeap {
  hp_conf : nat -> hconf;
  hp_sets : nat -> list string;
  hp_tgts : nat -> list target;
  hp_fmts : nat -> hfmt;
  hp_next : nat
}.

Definition upd_at {A} (f : nat -> A) (k : nat) (v : A) : nat -> A :=
  fun x => if Nat.eqb x k then v else f x.

(** What the getters of object [a] answer. *)
Definition view (h : heap) (a : nat) : config :=
  let o := hp_conf h a in
  w_format (f_kind (hp_fmts h (h_fmt o)))
    (w_targets (hp_tgts h (h_tgts o))
      (w_features (hp_sets h (h_feats o))
        (w_backports (hp_sets h (h_bps o)) (h_val o)))).

(** Replace the unshared part of object [a]. *)
Definition set_val (h : heap) (a : nat) (v : config) : heap :=
  let o := hp_conf h a in
  mkHeap (upd_at (hp_conf h) a (mkH v (h_bps o) (h_feats o) (h_tgts o) (h_fmt o)))
         (hp_sets h) (hp_tgts h) (hp_fmts h) (hp_next h).

(** In-place change of a set or list object. *)
Definition put_set (h : heap) (r : nat) (s : list string) : heap :=
  mkHeap (hp_conf h) (upd_at (hp_sets h) r s) (hp_tgts h) (hp_fmts h) (hp_next h).
Definition put_tgts (h : heap) (r : nat) (l : list target) : heap :=
  mkHeap (hp_conf h) (hp_sets h) (upd_at (hp_tgts h) r l) (hp_fmts h) (hp_next h).

(** config.py:374-377 [set_format] with the format object [r]: the format is told about this Config
    (formats/format.py:17-18, formats/parsable_format.py:10-14), which may change its settings. *)
Definition heap_set_format (h : heap) (a r : nat) : heap :=
  let o := hp_conf h a in
  let k := f_kind (hp_fmts h r) in
  mkHeap (upd_at (hp_conf h) a (mkH (set_format k (h_val o)) (h_bps o) (h_feats o) (h_tgts o) r))
         (hp_sets h) (hp_tgts h)
         (upd_at (hp_fmts h) r (mkF k (Some a)))
         (hp_next h).

(** A new format object of kind [k]. *)
Definition alloc_format (h : heap) (k : fmt) : heap * nat :=
  (mkHeap (hp_conf h) (hp_sets h) (hp_tgts h) (upd_at (hp_fmts h) (hp_next h) (mkF k None)) (S (hp_next h)),
   hp_next h).

(** config.py:19-38 [reset]: new sets, a new list and a new format object. *)
Definition heap_reset (cpus : Z) (h : heap) (a : nat) : heap :=
  let n := hp_next h in
  let h1 := mkHeap (upd_at (hp_conf h) a (mkH (default_config cpus) n (S n) n n))
                   (upd_at (upd_at (hp_sets h) n []) (S n) [])
                   (upd_at (hp_tgts h) n [])
                   (upd_at (hp_fmts h) n (mkF FDefault None))
                   (S (S n)) in
  heap_set_format h1 a n.

(** config.py:40-59 [a.override_from(b)]: exclusions and regexes are copied into new sets; backports,
    features and targets are whatever the getters return, i.e. the objects of [b]; likewise the
    format object. *)
Definition heap_override (h : heap) (a b : nat) : heap :=
  let ob := hp_conf h b in
  let v := h_val ob in
  let v' := w_exclusion_regex_set (dedup (exclusion_regex v)) (w_exclusions_set (dedup (exclusions v)) v) in
  let h1 := mkHeap (upd_at (hp_conf h) a (mkH v' (h_bps ob) (h_feats ob) (h_tgts ob) (h_fmt (hp_conf h a))))
                   (hp_sets h) (hp_tgts h) (hp_fmts h) (hp_next h) in
  heap_set_format h1 a (h_fmt ob).

(** One method call on object [a]. The [other] of an override is an object id. *)
Inductive hcmd : Type :=
| HCmd (m : cmd)
| HOverride (b : nat).

Section Run.
  Variable cpus : Z.
  Variable re_ok : string -> bool.

  (** The calls that only assign scalars or change the unshared sets are those of [run_cmd]
      (Config.v); the others are as follows (config.py:347-369, 374-377, 400-429). A [CmdOverrideFrom]
      of a bare value does not occur here ([HOverride] instead). *)
  Definition hrun (h : heap) (a : nat) (m : hcmd) : heap :=
    let o := hp_conf h a in
    match m with
    | HOverride b => heap_override h a b
    | HCmd c =>
        match c with
        | CmdAddBackport n =>
            if is_backport n then put_set h (h_bps o) (set_add n (hp_sets h (h_bps o))) else h
        | CmdClearBackports => put_set h (h_bps o) []
        | CmdEnableFeature n =>
            if is_feature n then put_set h (h_feats o) (set_add n (hp_sets h (h_feats o))) else h
        | CmdClearFeatures => put_set h (h_feats o) []
        | CmdAddTarget t => put_tgts h (h_tgts o) (c_targets (fst (add_target t (view h a))))
        | CmdClearTargets =>
            let n := hp_next h in
            mkHeap (upd_at (hp_conf h) a (mkH (h_val o) (h_bps o) (h_feats o) n (h_fmt o)))
                   (hp_sets h) (upd_at (hp_tgts h) n []) (hp_fmts h) (S n)
        | CmdFormat k => let (h', r) := alloc_format h k in heap_set_format h' a r
        | CmdReset => heap_reset cpus h a
        | CmdOverrideFrom _ => h
        | _ => set_val h a (run_cmd cpus re_ok (h_val o) c)
        end
    end.

  Definition hruns (h : heap) (a : nat) (l : list hcmd) : heap := fold_left (fun h m => hrun h a m) l h.
End Run.
