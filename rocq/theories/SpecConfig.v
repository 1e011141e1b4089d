(** * Specification: configuration files

    Lines are those of SpecParse ([newlines_read], [in_lines]). *)
From Verif Require Export SpecParse.

(** [t] is [s] without the white space around it *)
Definition trims (s t : str) : Prop :=
  exists a b, s = a ++ t ++ b /\ trimmed t /\ (forall c, In c (a ++ b) -> is_space c = true).
(** what is left of a line when its comment is removed *)
Definition uncommented (raw s : str) : Prop :=
  ~ In "#"%char s /\ (raw = s \/ exists comment, raw = s ++ "#"%char :: comment).
(** the line assigns [v] to [k] *)
Definition assigns (raw k v : str) : Prop :=
  exists s a b, uncommented raw s /\ s = a ++ "="%char :: b /\ ~ In "="%char a
    /\ trims a k /\ trims b v /\ k <> [] /\ v <> [].
(** the line holds the text [l], [[]] when it is blank or only a comment *)
Definition line_text (raw l : str) : Prop := exists s, uncommented raw s /\ trims s l.

(** the assignments of the lines, in order, and the texts of the other lines that are not blank *)
Inductive reads_as : list str -> list (str * str) -> list str -> Prop :=
| ra_nil : reads_as [] [] []
| ra_assign raw k v rs es os : assigns raw k v -> reads_as rs es os -> reads_as (raw :: rs) ((k, v) :: es) os
| ra_blank raw rs es os : line_text raw [] -> reads_as rs es os -> reads_as (raw :: rs) es os
| ra_other raw l rs es os : line_text raw l -> l <> [] -> (forall k v, ~ assigns raw k v) ->
    reads_as rs es os -> reads_as (raw :: rs) es (l :: os).

(** the value given last to a key *)
Definition last_value (k : str) (es : list (str * str)) (o : option str) : Prop :=
  match o with
  | Some v => exists es1 es2, es = es1 ++ (k, v) :: es2 /\ (forall w, ~ In (k, w) es2)
  | None => forall w, ~ In (k, w) es
  end.

(** strings that survive in a file *)
Definition one_line (s : str) : Prop := ~ In lf s /\ ~ In cr s.
Record clean_word (s : str) : Prop := {
  cw_nonempty : s <> []; cw_trimmed : trimmed s; cw_hash : ~ In "#"%char s; cw_line : one_line s }.
Definition clean_config (c : list (str * str)) : Prop :=
  NoDup (map fst c) /\ forall k v, In (k, v) c -> clean_word k /\ ~ In "="%char k /\ clean_word v.

(** two dictionaries agree *)
Definition same_items (a b : list (str * str)) : Prop := forall k v, In (k, v) a <-> In (k, v) b.
