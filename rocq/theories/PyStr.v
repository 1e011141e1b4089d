(** * Python strings, restricted to 7-bit text

    A Python [str] is modelled as a list of [ascii].  All functions below model the built-in
    methods the code in /repo calls; the comment on each names the Python operation. *)
From Coq Require Export String Ascii Arith ZArith Lia Bool List.
Export ListNotations.
Open Scope list_scope.

Definition str := list ascii.

(** [$"abc"] is the Python literal ["abc"]. *)
Notation "$ s" := (list_ascii_of_string s%string) (at level 1, s at level 0).

Definition chr (n : nat) : ascii := ascii_of_nat n.
Definition ord (c : ascii) : nat := nat_of_ascii c.

(** Exceptions the modelled code can raise. *)
Inductive exn :=
| AssertionError | ValueError | KeyError | IndexError | AttributeError | TypeError
| ZeroDivisionError | IllegalCharacterError | OSError | UnboundLocalError | FileNotFoundError | OutOfFuel.

Inductive result (A : Type) := Ok (a : A) | Err (e : exn).
Arguments Ok {A} a.
Arguments Err {A} e.

Definition bind {A B} (r : result A) (f : A -> result B) : result B :=
  match r with Ok a => f a | Err e => Err e end.
Notation "x <- e1 ;; e2" := (bind e1 (fun x => e2)) (at level 61, e1 at next level, right associativity).
Notation "' p <- e1 ;; e2" := (bind e1 (fun p => e2)) (at level 61, p pattern, e1 at next level, right associativity).

(** [a == b] *)
Fixpoint str_eqb (a b : str) : bool :=
  match a, b with
  | [], [] => true
  | x :: a', y :: b' => Ascii.eqb x y && str_eqb a' b'
  | _, _ => false
  end.

(** [a < b]: lexicographic by code point *)
Fixpoint str_ltb (a b : str) : bool :=
  match a, b with
  | _, [] => false
  | [], _ :: _ => true
  | x :: a', y :: b' =>
      if Ascii.eqb x y then str_ltb a' b' else Nat.ltb (ord x) (ord y)
  end.

Definition str_leb (a b : str) : bool := negb (str_ltb b a).

(** [x in l] for a list of strings *)
Definition str_in (x : str) (l : list str) : bool := existsb (str_eqb x) l.

(** [a == b] for lists of strings *)
Fixpoint strs_eqb (a b : list str) : bool :=
  match a, b with
  | [], [] => true
  | x :: a', y :: b' => str_eqb x y && strs_eqb a' b'
  | _, _ => false
  end.

(** [s.startswith(p)] *)
Fixpoint starts_with (p s : str) : bool :=
  match p, s with
  | [], _ => true
  | x :: p', y :: s' => Ascii.eqb x y && starts_with p' s'
  | _ :: _, [] => false
  end.

(** [s.endswith(p)] *)
Definition ends_with (p s : str) : bool := starts_with (rev p) (rev s).

(** [s.find(p)]; [None] stands for -1 *)
Fixpoint find_opt (p s : str) : option nat :=
  if starts_with p s then Some 0
  else match s with
       | [] => None
       | _ :: s' => match find_opt p s' with Some n => Some (S n) | None => None end
       end.

(** [s.find(p)] as the Python integer *)
Definition find (p s : str) : Z :=
  match find_opt p s with Some n => Z.of_nat n | None => (-1)%Z end.

(** [p in s] *)
Definition contains (p s : str) : bool :=
  match find_opt p s with Some _ => true | None => false end.

(** [s.rfind(c)] for a one-character pattern *)
Definition rfind_char (c : ascii) (s : str) : Z :=
  match find_opt [c] (rev s) with
  | Some n => (Z.of_nat (length s) - 1 - Z.of_nat n)%Z
  | None => (-1)%Z
  end.

(** Normalisation of a slice bound: negative bounds count from the end; both are clipped. *)
Definition slice_bound (len : nat) (i : Z) : nat :=
  if (i <? 0)%Z then Z.to_nat (Z.of_nat len + i) else Nat.min len (Z.to_nat i).

(** [s[i:j]], [s[i:]], [s[:j]] *)
Definition slice (i j : Z) (s : str) : str :=
  let a := slice_bound (length s) i in
  let b := slice_bound (length s) j in
  firstn (b - a) (skipn a s).
Definition slice_from (i : Z) (s : str) : str := skipn (slice_bound (length s) i) s.
Definition slice_to (j : Z) (s : str) : str := firstn (slice_bound (length s) j) s.

(** [s.split(c)] for a one-character separator; never empty *)
Fixpoint split_char (c : ascii) (s : str) : list str :=
  match s with
  | [] => [[]]
  | x :: s' =>
      if Ascii.eqb x c then [] :: split_char c s'
      else match split_char c s' with
           | w :: ws => (x :: w) :: ws
           | [] => [[x]]
           end
  end.

(** [s.partition(c)] for a one-character separator: before, whether found, after *)
Fixpoint partition_char (c : ascii) (s : str) : str * bool * str :=
  match s with
  | [] => ([], false, [])
  | x :: s' =>
      if Ascii.eqb x c then ([], true, s')
      else let '(a, f, b) := partition_char c s' in (x :: a, f, b)
  end.

(** [c.isspace()] on 7-bit characters *)
Definition is_space (c : ascii) : bool :=
  let n := ord c in
  (Nat.leb 9 n && Nat.leb n 13) || (Nat.leb 28 n && Nat.leb n 32).

(** [s.lstrip()], [s.rstrip()], [s.strip()] *)
Fixpoint lstrip (s : str) : str :=
  match s with
  | x :: s' => if is_space x then lstrip s' else s
  | [] => []
  end.
Definition rstrip (s : str) : str := rev (lstrip (rev s)).
Definition strip (s : str) : str := rstrip (lstrip s).

(** [s.strip(c)] for a one-character set *)
Fixpoint lstrip_char (c : ascii) (s : str) : str :=
  match s with
  | x :: s' => if Ascii.eqb x c then lstrip_char c s' else s
  | [] => []
  end.
Definition strip_char (c : ascii) (s : str) : str :=
  rev (lstrip_char c (rev (lstrip_char c s))).

(** [s.lower()], [s.upper()] on 7-bit characters *)
Definition lower_char (c : ascii) : ascii :=
  let n := ord c in if Nat.leb 65 n && Nat.leb n 90 then chr (n + 32) else c.
Definition upper_char (c : ascii) : ascii :=
  let n := ord c in if Nat.leb 97 n && Nat.leb n 122 then chr (n - 32) else c.
Definition lower (s : str) : str := map lower_char s.
Definition upper (s : str) : str := map upper_char s.

(** [s.replace(c, new)] for a one-character pattern *)
Definition replace_char (c : ascii) (new : str) (s : str) : str :=
  flat_map (fun x => if Ascii.eqb x c then new else [x]) s.

(** [s.replace(p, new)] for a non-empty pattern: leftmost, non-overlapping.
    [fuel] is the length of [s], which always suffices (each step consumes a character). *)
Fixpoint replace_fuel (fuel : nat) (p new s : str) : str :=
  match fuel with
  | 0 => s
  | S f =>
      match s with
      | [] => []
      | x :: s' =>
          if starts_with p s then new ++ replace_fuel f p new (skipn (length p) s)
          else x :: replace_fuel f p new s'
      end
  end.
Definition replace (p new s : str) : str := replace_fuel (length s) p new s.

(** [sep.join(l)] *)
Fixpoint join (sep : str) (l : list str) : str :=
  match l with
  | [] => []
  | [x] => x
  | x :: l' => x ++ sep ++ join sep l'
  end.

(** [c.isdigit()] *)
Definition is_digit (c : ascii) : bool := Nat.leb 48 (ord c) && Nat.leb (ord c) 57.

Definition digit_char (n : nat) : ascii := chr (48 + n).

(** [str(n)] for a natural number: [fuel] bounds the number of digits *)
Fixpoint nat_to_str_fuel (fuel : nat) (n : N) (acc : str) : str :=
  match fuel with
  | 0 => acc
  | S f =>
      let acc' := digit_char (N.to_nat (N.modulo n 10)) :: acc in
      if N.ltb n 10 then acc' else nat_to_str_fuel f (N.div n 10) acc'
  end.
Definition n_to_str (n : N) : str := nat_to_str_fuel (S (N.to_nat (N.size n))) n [].

(** [str(z)] for an integer *)
Definition z_to_str (z : Z) : str :=
  match z with
  | Z0 => $"0"
  | Zpos p => n_to_str (Npos p)
  | Zneg p => "-"%char :: n_to_str (Npos p)
  end.

(** [int(s)] on text made of digits: [None] when a non-digit occurs or the text is empty *)
Fixpoint digits_val (acc : N) (s : str) : option N :=
  match s with
  | [] => Some acc
  | c :: s' => if is_digit c then digits_val (acc * 10 + N.of_nat (ord c - 48))%N s' else None
  end.

(** [int(s)]: surrounding white space, an optional sign, digits.  Single underscores between
    digits, which Python also accepts, are handled by [drop_underscores]. *)
Fixpoint drop_underscores (prev_digit : bool) (s : str) : option str :=
  match s with
  | [] => Some []
  | c :: s' =>
      if Ascii.eqb c "_" then
        match s' with
        | d :: _ => if prev_digit && is_digit d then drop_underscores false s' else None
        | [] => None
        end
      else match drop_underscores (is_digit c) s' with
           | Some r => Some (c :: r)
           | None => None
           end
  end.
Definition unsigned_val (s : str) : option N :=
  match s with
  | [] => None
  | _ => match drop_underscores false s with Some r => digits_val 0 r | None => None end
  end.
Definition py_int (s : str) : result Z :=
  match strip s with
  | "-"%char :: r => match unsigned_val r with Some n => Ok (- Z.of_N n)%Z | None => Err ValueError end
  | "+"%char :: r => match unsigned_val r with Some n => Ok (Z.of_N n) | None => Err ValueError end
  | r => match unsigned_val r with Some n => Ok (Z.of_N n) | None => Err ValueError end
  end.

(** Insertion sort; [sorted(l)] on strings (stable, the order is total so any sort agrees). *)
Fixpoint insert_str (x : str) (l : list str) : list str :=
  match l with
  | [] => [x]
  | y :: l' => if str_leb x y then x :: l else y :: insert_str x l'
  end.
Definition sorted (l : list str) : list str := fold_right insert_str [] l.
