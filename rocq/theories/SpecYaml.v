(** * A part of YAML: block mappings and block sequences with values on one line (C78)

    Enough for worksheets as ThoughtSpot writes them, except values over several lines, flow
    collections and anchors.  How a value on one line is read is left open ([scalar]). *)
From Verif Require Export SpecWorksheet.

(** a line: its indentation and its content *)
Fixpoint indented (s : str) : nat * str :=
  match s with
  | " "%char :: r => let '(n, x) := indented r in (S n, x)
  | _ => (0, s)
  end.
(** lines without content and comments do not count *)
Definition counts (p : nat * str) : bool := negb (match snd p with [] => true | c :: _ => Ascii.eqb c "#" end).
Definition outline (ls : list str) : list (nat * str) := filter counts (map indented ls).

(** [key:] or [key: value] *)
Definition word_char (c : ascii) : bool :=
  let n := nat_of_ascii c in (Nat.leb 48 n && Nat.leb n 57) || (Nat.leb 65 n && Nat.leb n 90) || (Nat.leb 97 n && Nat.leb n 122) || Nat.eqb n 95.
Fixpoint first_word (s : str) : str * str :=
  match s with
  | c :: r => if word_char c then let '(w, x) := first_word r in (c :: w, x) else ([], s)
  | [] => ([], [])
  end.
(** keys that YAML reads as text: no numbers, truth values or null, nor longer than a key may be *)
Definition plain_word (k : str) : bool :=
  match k with
  | [] => false
  | c :: _ => Nat.leb 58 (nat_of_ascii c) && Nat.leb (length k) 1000
              && negb (str_in (lower k) [$"yes"; $"no"; $"true"; $"false"; $"on"; $"off"; $"null"])
  end.
Definition key_and_value (s : str) : option (str * option str) :=
  let '(k, r) := first_word s in
  if plain_word k then
    match r with
    | [":"%char] => Some (k, None)
    | ":"%char :: " "%char :: t => Some (k, Some t)
    | _ => None
    end
  else None.
(** [- item] *)
Definition dash (s : str) : bool := starts_with ($"- ") s.

(** the lines that belong to the line [h] with indentation [n], and those after them; a sequence may stand
    directly below its key *)
Definition belongs (n : nat) (h : str) (p : nat * str) : bool := Nat.ltb n (fst p) || (Nat.eqb (fst p) n && dash (snd p) && negb (dash h)).
Fixpoint below (n : nat) (h : str) (ls : list (nat * str)) : list (nat * str) * list (nat * str) :=
  match ls with
  | p :: r => if belongs n h p then let '(a, b) := below n h r in (p :: a, b) else ([], ls)
  | [] => ([], [])
  end.
Fixpoint groups (fuel n : nat) (ls : list (nat * str)) : option (list (str * list (nat * str))) :=
  match fuel, ls with
  | _, [] => Some []
  | S f, (i, c) :: r =>
      if Nat.eqb i n then let '(a, b) := below n c r in match groups f n b with Some g => Some ((c, a) :: g) | None => None end else None
  | O, _ => None
  end.
Fixpoint all {A} (l : list (option A)) : option (list A) :=
  match l with
  | [] => Some []
  | Some x :: r => match all r with Some xs => Some (x :: xs) | None => None end
  | None :: _ => None
  end.
Fixpoint distinct_names (l : list str) : bool := match l with [] => true | x :: l => negb (str_in x l) && distinct_names l end.

Section Scalar.
Variable scalar : str -> option yaml.
Fixpoint node (fuel : nat) (ls : list (nat * str)) : option yaml :=
  match fuel, ls with
  | S f, (n, _) :: _ =>
      match groups (length ls) n ls with
      | None => None
      | Some gs =>
          if forallb (fun g => dash (fst g)) gs
          then match all (map (fun g =>
                     let x := skipn 2 (fst g) in
                     match key_and_value x, snd g with
                     | Some _, under => node f ((n + 2, x) :: under)
                     | None, [] => scalar x
                     | None, _ => None
                     end) gs) with Some vs => Some (YList vs) | None => None end
          else match all (map (fun g =>
                     match key_and_value (fst g), snd g with
                     | Some (k, None), [] => Some (k, YNull)
                     | Some (k, None), under => match node f under with Some v => Some (k, v) | None => None end
                     | Some (k, Some t), [] => match scalar t with Some v => Some (k, v) | None => None end
                     | _, _ => None
                     end) gs) with
               | Some kvs => if distinct_names (map fst kvs) then Some (YMap kvs) else None
               | None => None
               end
      end
  | _, _ => None
  end.
(** the value of a document in this part of YAML *)
Definition simple_yaml (ls : list str) : option yaml := node (2 * length (outline ls)) (outline ls).
(** [safe_load] understands this part of YAML *)
Definition printable (l : str) : Prop := forall c, In c l -> 32 <= nat_of_ascii c <= 126.
Definition understands (safe_load : str -> result yaml) : Prop :=
  forall ls v, Forall printable ls -> simple_yaml ls = Some v -> safe_load (text_of_lines ls []) = Ok v.
End Scalar.

(** a name that is used as a key *)
Definition a_word (k : str) : Prop := plain_word k = true /\ forallb word_char k = true.
(** a line with another key in the first column *)
Definition other_key (l : str) : Prop := outline [l] <> [] /\ fst (indented l) = 0 /\ dash l = false.
