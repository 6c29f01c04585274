(** The library functions and the program (C81). *)
From Verif Require Import PyBase Config Paths Parser Processor Spec_Base.

(** Texts parsed under different file names: the same tree, or the same error but for the name it tells. *)
Inductive same_error : perr -> perr -> Prop :=
| se_syntax t m f f' l o : same_error (PeSyntax (mkSyn t m f l o)) (PeSyntax (mkSyn t m f' l o))
| se_other x : same_error x x.
Inductive same_parse : parsed -> parsed -> Prop :=
| sp_error x x' : same_error x x' -> same_parse (PErr x) (PErr x')
| sp_tokens v x x' : same_error x x' -> same_parse (PTree v (inl x)) (PTree v (inl x'))
| sp_tree v l : same_parse (PTree v (inr l)) (PTree v (inr l)).

(** Reading the text ends in a tree or in an error that is due to it. *)
Definition due_to_text (p : parsed) : Prop :=
  forall x, (p = PErr x \/ exists v, p = PTree v (inl x)) -> x <> PeInterrupt /\ forall t, x <> PeOther t.

(** What the library says of a source and what the program makes of a file with it. *)
Inductive agree : res mins -> res (option presult) -> Prop :=
| ag_verdict m x : r_mins x = MVers m -> agree (Ok m) (Ok (Some x))
| ag_clash msg x : r_mins x = MNone -> r_text x = msg -> agree (Err (InvalidVersion msg)) (Ok (Some x))
| ag_ignored e : e = ValueError \/ e = TypeError -> agree (Err e) (Ok None)
| ag_failed e : agree (Err e) (Err e).

(** The verdict of the library for the source of a file, asked with some path or without any. *)
Definition library_says (h : hooks) (major : Z) (c : config) (file : string -> fcontent) (p : string) (m : mins) : Prop :=
  exists source t q t', file p = FcSource source t /\ same_parse t t' /\
    path_ok c (api_path q) = true /\ api_detect h major c q source t' = Ok m.
Definition library_among (h : hooks) (major : Z) (c : config) (file : string -> fcontent) (files : list string) (m : mins) : Prop :=
  exists p, In p files /\ library_says h major c file p m.
