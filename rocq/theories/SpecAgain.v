(** * Specification: a reader used for several workbooks (C108) *)
From Verif Require Export SpecContents SpecLeft.
From Coq Require Import List. Import ListNotations.

(** What a reader may hold that has read any number of workbooks, or raised an exception while reading
    them.  [TypeError] stands in the model for what is outside it. *)
Inductive held : dict database -> Prop :=
| held_nothing : held []
| held_read : forall base dbs w dbs' ms, held dbs -> read_xls base dbs w = Ok (dbs', ms) -> held dbs'
| held_failed : forall base dbs w dbs' e, held dbs -> xls_left base dbs w = (dbs', Some e) -> e <> TypeError -> held dbs'.

(** what was there before counts as so many rows before the first one *)
Definition then_rows {V : Type} (before : list (str * V)) (entry : nat -> str -> V -> Prop) (k : nat) (x : str) (v : V) : Prop :=
  nth_error before k = Some (x, v) \/ exists j, k = length before + j /\ entry j x v.
Definition listed_as {V : Type} (name : V -> str) (l : list V) : list (str * V) := map (fun v => (name v, v)) l.
Definition names_only (l : list str) : list (str * unit) := map (fun x => (x, tt)) l.
