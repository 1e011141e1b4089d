(** * Specification: how a DDL text is cut into statements, and what parsed objects look like

    Only Python string primitives are shared with the model of the parser. *)
From Verif Require Export PyStr.

(** [p] occurs in [s] *)
Definition occurs (p s : str) : Prop := exists a b, s = a ++ p ++ b.
(** [a] is what stands before the first occurrence of [p] in [s], [b] what stands after it *)
Definition first_cut (p s a b : str) : Prop :=
  s = a ++ p ++ b /\ forall a' b', s = a' ++ p ++ b' -> length a <= length a'.

(** ** Lines *)
(** a maximal run of [c] becomes one blank *)
Inductive runs_to_blank (c : ascii) : str -> str -> Prop :=
| rb_nil : runs_to_blank c [] []
| rb_other x s s' : x <> c -> runs_to_blank c s s' -> runs_to_blank c (x :: s) (x :: s')
| rb_run n s s' : (forall x r, s = x :: r -> x <> c) -> runs_to_blank c s s' ->
    runs_to_blank c (repeat c (S n) ++ s) (" "%char :: s').
(** a line without surrounding white space, runs of blanks and then of tabs replaced by a blank, cut
    at its first double dash *)
Definition line_content (raw l : str) : Prop :=
  exists m m', runs_to_blank " " (strip raw) m /\ runs_to_blank (ascii_of_nat 9) m m'
    /\ ((exists b, first_cut ($"--") m' l b) \/ (~ occurs ($"--") m' /\ l = m')).
(** the lines that count: those not beginning with GO *)
Inductive kept_lines : list str -> list str -> Prop :=
| kl_nil : kept_lines [] []
| kl_keep raw l rs ls : line_content raw l -> ~ (exists r, l = $"GO" ++ r) -> kept_lines rs ls ->
    kept_lines (raw :: rs) (l :: ls)
| kl_skip raw r rs ls : line_content raw ($"GO" ++ r) -> kept_lines rs ls -> kept_lines (raw :: rs) ls.

(** what a line adds to the text, the first argument telling whether it begins inside a block
    comment and the last whether it ends inside one *)
Inductive line_adds : bool -> str -> str -> bool -> Prop :=
| la_inside l : ~ occurs ($"*/") l -> line_adds true l [] true
| la_close l a b : first_cut ($"*/") l a b -> line_adds true l b false
| la_plain l : ~ occurs ($"/*") l -> line_adds false l (" "%char :: l) false
| la_open l a b : first_cut ($"/*") l a b -> ~ occurs ($"*/") b -> line_adds false l a true
| la_both l a b c d : first_cut ($"/*") l a b -> first_cut ($"*/") b c d -> line_adds false l (a ++ d) false.
Inductive lines_add : bool -> list str -> list str -> bool -> Prop :=
| lsa_nil i : lines_add i [] [] i
| lsa_cons i l x j ls xs k : line_adds i l x j -> lines_add j ls xs k -> lines_add i (l :: ls) (x :: xs) k.

(** ** Delivery: one statement at most per line, the others wait *)
Definition semicolons (s : str) : nat := count_occ ascii_dec s ";"%char.
Fixpoint taken (waiting : nat) (arrivals : list nat) : nat :=
  match arrivals with
  | [] => 0
  | a :: l => match waiting + a with 0 => taken 0 l | S k => S (taken k l) end
  end.
(** how many wait in the end *)
Fixpoint left_waiting (waiting : nat) (arrivals : list nat) : nat :=
  match arrivals with
  | [] => waiting
  | a :: l => left_waiting (pred (waiting + a)) l
  end.
(** statements in sequence, each with its semicolon *)
Definition terminated (ps : list str) : str := flat_map (fun p => p ++ $";") ps.
(** a statement as delivered: trimmed, runs of blanks collapsed *)
Definition tidy (p q : str) : Prop := runs_to_blank " " (strip p) q.

(** ** Clean statements *)
Definition trimmed (s : str) : Prop :=
  (forall c r, s = c :: r -> is_space c = false) /\ (forall c r, s = r ++ [c] -> is_space c = false).
Record clean_statement (s : str) : Prop := {
  cs_semi : ~ In ";"%char s; cs_newline : ~ In (ascii_of_nat 10) s; cs_tab : ~ In (ascii_of_nat 9) s;
  cs_trimmed : trimmed s; cs_single : ~ occurs ($"  ") s }.

(** ** The lines of a text file read in text mode *)
Definition lf : ascii := ascii_of_nat 10.
Definition cr : ascii := ascii_of_nat 13.
(** CR LF and CR become LF *)
Inductive newlines_read : str -> str -> Prop :=
| nr_nil : newlines_read [] []
| nr_crlf s s' : newlines_read s s' -> newlines_read (cr :: lf :: s) (lf :: s')
| nr_cr s s' : (forall r, s <> lf :: r) -> newlines_read s s' -> newlines_read (cr :: s) (lf :: s')
| nr_other c s s' : c <> cr -> newlines_read s s' -> newlines_read (c :: s) (c :: s').
(** lines end with LF; the last one may lack it but is not empty then *)
Inductive in_lines : str -> list str -> Prop :=
| il_nil : in_lines [] []
| il_last w : w <> [] -> ~ In lf w -> in_lines w [w]
| il_line w s ls : ~ In lf w -> in_lines s ls -> in_lines (w ++ lf :: s) ((w ++ [lf]) :: ls).

(** ** Delivery, for a whole text: [xs] is what the lines add, [ps] the statements delivered before
    tidying, [rest] what is never delivered *)
Record splits (text : str) (xs ps : list str) (rest : str) : Prop := {
  sp_lines : exists t raws ls j, newlines_read text t /\ in_lines t raws /\ kept_lines raws ls /\ lines_add false ls xs j;
  sp_text : concat xs = terminated ps ++ rest;
  sp_cut : Forall (fun p => ~ In ";"%char p) ps;
  sp_count : length ps = taken 0 (map semicolons xs) }.
Definition delivers (text : str) (stmts : list str) : Prop :=
  exists xs ps rest, splits text xs ps rest /\ Forall2 tidy ps stmts.

(** two lists of lines that differ only inside block comments, line by line *)
Inductive comments_only : bool -> list str -> list str -> Prop :=
| co_nil i : comments_only i [] []
| co_plain l ls ls' : ~ occurs ($"/*") l -> comments_only false ls ls' -> comments_only false (l :: ls) (l :: ls')
| co_inside l l' ls ls' : ~ occurs ($"*/") l -> ~ occurs ($"*/") l' -> comments_only true ls ls' ->
    comments_only true (l :: ls) (l' :: ls')
| co_close l l' a a' b ls ls' : first_cut ($"*/") l a b -> first_cut ($"*/") l' a' b -> comments_only false ls ls' ->
    comments_only true (l :: ls) (l' :: ls')
| co_open l l' a b b' ls ls' : first_cut ($"/*") l a b -> ~ occurs ($"*/") b -> first_cut ($"/*") l' a b' -> ~ occurs ($"*/") b' ->
    comments_only true ls ls' -> comments_only false (l :: ls) (l' :: ls')
| co_both l l' a b b' c c' d ls ls' : first_cut ($"/*") l a b -> first_cut ($"*/") b c d ->
    first_cut ($"/*") l' a b' -> first_cut ($"*/") b' c' d -> comments_only false ls ls' ->
    comments_only false (l :: ls) (l' :: ls').

(** ** Types *)
(** the part of a type text that counts: up to its first closing parenthesis, else up to its first
    blank, else all of it *)
Definition looked_at (s t : str) : Prop :=
  (exists a b, first_cut ($")") s a b /\ t = a ++ $")")
  \/ (~ occurs ($")") s /\ exists a b, first_cut ($" ") s a b /\ t = a ++ $" ")
  \/ (~ occurs ($")") s /\ ~ occurs ($" ") s /\ t = s).
(** the arguments of a type text that ends with its only closing parenthesis: what follows the first
    opening one *)
Definition type_args (t args : str) : Prop :=
  (exists a, first_cut ($"(") t a (args ++ $")") /\ ~ In ")"%char args)
  \/ (~ occurs ($"(") t /\ t = args ++ $")" /\ ~ In ")"%char args).
(** a NUMBER(p,s) form that cannot be read *)
Definition malformed_number (t : str) : Prop :=
  exists args, type_args t args
    /\ (2 <= count_occ ascii_dec args ","%char
        \/ exists p s, args = p ++ "," %char :: s /\ ~ In ","%char (p ++ s)
             /\ strip s = $"0" /\ p <> $"*" /\ py_int p = Err ValueError).
Definition before_number : list str :=
  [$"int"; $"rowversion"; $"uniqueidentifier"; $"sysname"; $"serial"; $"bit"; $"blob"; $"binary"].
Definition target_types : list str :=
  [$"BIGINT"; $"INT"; $"VARCHAR(0)"; $"BOOL"; $"UNKNOWN"; $"DOUBLE"; $"DATETIME"; $"TIME"; $"DATE"].

(** ** Fields of a column list *)
Definition depth (s : str) : Z :=
  (Z.of_nat (count_occ ascii_dec s "("%char) - Z.of_nat (count_occ ascii_dec s ")"%char))%Z.
(** [fs] is the text cut at its commas outside parentheses *)
Record cut_at_top (s : str) (fs : list str) : Prop := {
  ct_nonempty : fs <> [];
  ct_join : s = join ($",") fs;
  ct_closed : forall pre f post, fs = pre ++ f :: post -> post <> [] -> depth f = 0%Z;
  ct_inside : forall f a b, In f fs -> f = a ++ ","%char :: b -> depth a <> 0%Z }.
(** parentheses are never nested and never closed before they are opened *)
Definition flat_parens (s : str) : Prop := forall a b, s = a ++ b -> (0 <= depth a <= 1)%Z.
(** trimmed fields; an empty last one does not count *)
Definition fields_of (fs rs : list str) : Prop :=
  exists init last, fs = init ++ [last]
    /\ rs = map strip init ++ (if str_eqb last [] then [] else [strip last]).

(** ** Names *)
Definition free_of (cs : list ascii) (s : str) : Prop := forall c, In c cs -> ~ In c s.
Definition dq : ascii := ascii_of_nat 34.
Definition sq : ascii := ascii_of_nat 39.
Definition bq : ascii := ascii_of_nat 96.
(** what no name contains, what no table name of a CREATE contains, what no name in an ALTER or a
    hash clause contains *)
Definition common_marks : list ascii := [dq; sq; "["; "]"; "."]%char.
Definition create_marks : list ascii := bq :: common_marks.
Definition alter_marks : list ascii := ascii_of_nat 9 :: common_marks.
