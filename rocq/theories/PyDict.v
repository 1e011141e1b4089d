(** * Python dict / OrderedDict with string keys, as association lists in insertion order *)
From Verif Require Export PyStr.

Definition dict (A : Type) := list (str * A).

Section Dict.
Context {A : Type}.

(** [d.get(k)] *)
Fixpoint dget (k : str) (d : dict A) : option A :=
  match d with
  | [] => None
  | (k', v) :: d' => if str_eqb k k' then Some v else dget k d'
  end.

(** [k in d] *)
Definition dmem (k : str) (d : dict A) : bool :=
  match dget k d with Some _ => true | None => false end.

(** [d[k] = v]: a live key keeps its place, a new key goes to the end *)
Fixpoint dset (k : str) (v : A) (d : dict A) : dict A :=
  match d with
  | [] => [(k, v)]
  | (k', v') :: d' => if str_eqb k k' then (k', v) :: d' else (k', v') :: dset k v d'
  end.

(** [d.pop(k, None)], the remaining dictionary *)
Fixpoint ddel (k : str) (d : dict A) : dict A :=
  match d with
  | [] => []
  | (k', v') :: d' => if str_eqb k k' then d' else (k', v') :: ddel k d'
  end.

(** [d.keys()], [d.values()] *)
Definition dkeys (d : dict A) : list str := map fst d.
Definition dvals (d : dict A) : list A := map snd d.

End Dict.
