(** * Specification: what a history of keyed writes and removals leaves behind

    Nothing here mentions the model's dictionaries.  A history lists events, oldest first. *)
From Verif Require Export PyStr.

Section Hist.
Context {A : Type}.

Inductive kv_event := Put (k : str) (v : A) | Remove (k : str).

Definition key_of (e : kv_event) : str := match e with Put k _ => k | Remove k => k end.

(** [v] was the last thing put under [k], and nothing happened to [k] afterwards *)
Definition Holds (h : list kv_event) (k : str) (v : A) : Prop :=
  exists h1 h2, h = h1 ++ Put k v :: h2 /\ (forall e, In e h2 -> key_of e <> k).

Definition Live (h : list kv_event) (k : str) : Prop := exists v, Holds h k v.

(** [k] is live since event number [i], which put it there when it was not live *)
Definition Born (h : list kv_event) (k : str) (i : nat) : Prop :=
  exists h1 v h2, h = h1 ++ Put k v :: h2 /\ i = length h1 /\ ~ Live h1 k
                  /\ (forall e, In e h2 -> e <> Remove k).

(** [a] and [b] are live and [a] has been so for longer *)
Definition born_before (h : list kv_event) (a b : str) : Prop :=
  exists i j, Born h a i /\ Born h b j /\ i < j.

End Hist.
Arguments kv_event : clear implicits.
