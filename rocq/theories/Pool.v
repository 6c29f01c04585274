(** Model of multiprocessing.Pool.imap (CPython multiprocessing/pool.py, class IMapIterator, chunksize
    1): workers finish tasks in any order; results are handed out in task order.
    Used by processor.py:53-58 and detection.py:520-527. Trusted reading of the standard library. *)
From Verif Require Import PyBase.

Section Imap.
  Context {A : Type}.

  (** IMapIterator: [_index], [_items] (ready, in order), [_unsorted] (finished ahead of turn). *)
  Record imap_state : Type := mkImap {
    im_index : nat;
    im_items : list A;
    im_unsorted : list (nat * A)
  }.

  Definition imap_init : imap_state := mkImap 0 [] [].

  Fixpoint lookup_nat (n : nat) (l : list (nat * A)) : option A :=
    match l with
    | [] => None
    | (k, v) :: r => if Nat.eqb n k then Some v else lookup_nat n r
    end.

  (** "while self._index in self._unsorted": bounded by the number of entries. *)
  Fixpoint drain (fuel : nat) (s : imap_state) : imap_state :=
    match fuel with
    | O => s
    | S k =>
        match lookup_nat (im_index s) (im_unsorted s) with
        | None => s
        | Some v =>
            drain k (mkImap (S (im_index s)) (im_items s ++ [v])
                       (filter (fun e => negb (Nat.eqb (im_index s) (fst e))) (im_unsorted s)))
        end
    end.

  (** IMapIterator._set(i, obj): worker result [v] of task [i] arrives. *)
  Definition imap_set (i : nat) (v : A) (s : imap_state) : imap_state :=
    if Nat.eqb (im_index s) i
    then drain (List.length (im_unsorted s)) (mkImap (S (im_index s)) (im_items s ++ [v]) (im_unsorted s))
    else mkImap (im_index s) (im_items s) ((i, v) :: im_unsorted s).

  (** An event of an execution: task [i] completes, or the consumer asks for the next result. *)
  Inductive event : Type := Complete (i : nat) | Next.

  (** One execution over the results [f i] of the tasks; [Next] on an empty buffer blocks (no effect).
      Returns what the consumer has received. *)
  Fixpoint imap_run (f : nat -> A) (evs : list event) (s : imap_state) (got : list A) : imap_state * list A :=
    match evs with
    | [] => (s, got)
    | Complete i :: r => imap_run f r (imap_set i (f i) s) got
    | Next :: r =>
        match im_items s with
        | [] => imap_run f r s got
        | x :: xs => imap_run f r (mkImap (im_index s) xs (im_unsorted s)) (got ++ [x])
        end
    end.

  Definition completions (evs : list event) : list nat :=
    flat_map (fun e => match e with Complete i => [i] | Next => [] end) evs.

  (** Executions of a pool with [n] tasks: every task completes at most once, in any order; the
      consumer may ask at any time. *)
  Definition schedule (n : nat) (evs : list event) : Prop :=
    NoDup (completions evs) /\ (forall i, In i (completions evs) -> (i < n)%nat).
End Imap.
Arguments imap_state A : clear implicits.
Arguments imap_init {A}.
