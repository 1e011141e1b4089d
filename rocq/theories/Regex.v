(** * The fragment of Python's [re] used by dt/io.py

    The seven patterns of dt/io.py:471, 546, 580, 588, 596, 628 and 636 are sequences of literal
    text, dot-star with or without a group around it, and blank-star, matched with [re.IGNORECASE] on 7-bit text.  The matcher below is
    the usual backtracking one: a star takes as much as possible and gives back one character at a
    time. *)
From Verif Require Export PyStr.

Inductive rx :=
| RLit (p : str)        (** literal text, case ignored *)
| RAny                  (** dot-star *)
| RGroup                (** dot-star in a group *)
| RBlanks.              (** blank-star *)
Definition regex := list rx.

(** equality of characters under [re.IGNORECASE], for 7-bit characters *)
Definition ci_eqb (a b : ascii) : bool := Ascii.eqb (lower_char a) (lower_char b).

(** what is left of [s] after the literal [p] *)
Fixpoint lit_prefix (p s : str) : option str :=
  match p, s with
  | [], _ => Some s
  | x :: p', y :: s' => if ci_eqb x y then lit_prefix p' s' else None
  | _ :: _, [] => None
  end.

(** [.] matches everything but a newline *)
Definition dot (c : ascii) : bool := negb (Ascii.eqb c (chr 10)).
Definition blank (c : ascii) : bool := Ascii.eqb c " ".

(** a greedy star over the characters accepted by [ok], followed by the continuation [k]: the
    text taken and what [k] gives *)
Fixpoint star {A} (ok : ascii -> bool) (k : str -> option A) (s : str) : option (str * A) :=
  let here := match k s with Some a => Some ([], a) | None => None end in
  match s with
  | [] => here
  | c :: s' =>
      if ok c then
        match star ok k s' with
        | Some (w, a) => Some (c :: w, a)
        | None => here
        end
      else here
  end.

(** [re.match(r, s, re.IGNORECASE)]: the groups *)
Fixpoint rmatch (r : regex) (s : str) : option (list str) :=
  match r with
  | [] => Some []
  | RLit p :: r' => match lit_prefix p s with Some s' => rmatch r' s' | None => None end
  | RAny :: r' => match star dot (rmatch r') s with Some (_, g) => Some g | None => None end
  | RGroup :: r' => match star dot (rmatch r') s with Some (w, g) => Some (w :: g) | None => None end
  | RBlanks :: r' => match star blank (rmatch r') s with Some (_, g) => Some g | None => None end
  end.

(** [re.compile(r, re.IGNORECASE).search(s)]: the leftmost match *)
Fixpoint rsearch (r : regex) (s : str) : option (list str) :=
  match rmatch r s with
  | Some g => Some g
  | None => match s with [] => None | _ :: s' => rsearch r s' end
  end.

(** [re.split(p, s, flags=re.IGNORECASE)] for a literal [p]; [skip] characters belong to a
    separator already found *)
Fixpoint resplit_aux (p : str) (skip : nat) (s : str) : list str :=
  match s with
  | [] => [[]]
  | c :: s' =>
      match skip with
      | S k => resplit_aux p k s'
      | 0 =>
          match lit_prefix p s with
          | Some _ => [] :: resplit_aux p (length p - 1) s'
          | None => match resplit_aux p 0 s' with
                    | w :: ws => (c :: w) :: ws
                    | [] => [[c]]
                    end
          end
      end
  end.
Definition resplit (p s : str) : list str := resplit_aux p 0 s.

(** [re.sub(c + "+", " ", s)]: every run of [c] becomes one blank; [in_run] tells whether the
    previous character was [c] *)
Fixpoint squeeze (c : ascii) (in_run : bool) (s : str) : str :=
  match s with
  | [] => []
  | x :: s' =>
      if Ascii.eqb x c then if in_run then squeeze c true s' else " "%char :: squeeze c true s'
      else x :: squeeze c false s'
  end.
Definition sub_runs (c : ascii) (s : str) : str := squeeze c false s.
