(** * Specification vocabulary for the data model reviewer *)
From Verif Require Export Reviewer.

(** a review has the prefix, is among the names asked for (if any) and gets what it needs *)
Definition selected (names : list str) (r : review) : Prop :=
  (exists rest, rv_name r = $"review_" ++ rest) /\ (names = [] \/ In (rv_name r) names).
Definition supplied (ws : option worksheet) (rtql : option oracle) (r : review) : Prop :=
  (In PRtql (rv_params r) -> rtql <> None) /\ (In PWorksheet (rv_params r) -> ws <> None).
(** a review without any of the known parameters is never called *)
Definition applicable (names : list str) (ws : option worksheet) (rtql : option oracle) (r : review) : Prop :=
  selected names r /\ supplied ws rtql r /\ rv_params r <> [].

(** the argument is passed only to reviews with the parameter *)
Definition passed {A} (p : param) (r : review) (o given : option A) : Prop :=
  (In p (rv_params r) -> given = o) /\ (~ In p (rv_params r) -> given = None).

(** Running the applicable reviews of a list in order, until one fails: the reviews called with what they
    returned, the failure if there is one, and the queries asked. *)
Inductive runs (names : list str) (ws : option worksheet) (rtql : option oracle) :
  list str -> list review -> list (str * list str) -> option (str * exn) -> list str -> Prop :=
| runs_end h : runs names ws rtql h [] [] None h
| runs_other h r l outs e h' :
    ~ applicable names ws rtql r -> runs names ws rtql h l outs e h' -> runs names ws rtql h (r :: l) outs e h'
| runs_review h r l q w issues h1 outs e h' :
    applicable names ws rtql r -> passed PRtql r rtql q -> passed PWorksheet r ws w -> rv_run r q w h = (Ok issues, h1) ->
    runs names ws rtql h1 l outs e h' -> runs names ws rtql h (r :: l) ((rv_name r, issues) :: outs) e h'
| runs_failure h r l q w x h1 :
    applicable names ws rtql r -> passed PRtql r rtql q -> passed PWorksheet r ws w -> rv_run r q w h = (Err x, h1) ->
    runs names ws rtql h (r :: l) [] (Some (rv_name r, x)) h1.

(** the reviews called according to the events *)
Definition calls (ev : list event) : list str := flat_map (fun e => match e with Called n => [n] | Skipped _ => [] end) ev.
Definition skips (ev : list event) : list str := flat_map (fun e => match e with Called _ => [] | Skipped n => [n] end) ev.

(** ** Documentation: the lines of a text, without the spaces around them *)
Definition is_blank (l : str) : Prop := strip l = [].
Definition is_field (l : str) : Prop := exists rest, strip l = ":"%char :: rest.
(** what is told of a documentation: the lines before the first field that are not blank *)
Definition told (lines told : list str) : Prop :=
  exists pre post, lines = pre ++ post /\ (forall l, In l pre -> ~ is_field l) /\ (post = [] \/ exists f rest, post = f :: rest /\ is_field f)
    /\ told = filter (fun l => match l with [] => false | _ => true end) (map strip pre).
(** a review, with its parameters and the lines of its documentation, and what is told of it *)
Definition described (entry : str * list str * list str) (out : str * list str) : Prop :=
  let '(name, params, lines) := entry in fst out = name ++ $"(" ++ join ($", ") params ++ $")" /\ told lines (snd out).
(** entries that are reviews, as names of a module, and their signatures *)
Definition is_review (e : str * list str * list str) : bool := starts_with ($"review_") (fst (fst e)).
Definition in_module (e : str * list str * list str) : str * list str * option str := (fst e, Some (join [newline] (snd e))).
Definition signature (e : str * list str * list str) : str := fst (fst e) ++ $"(" ++ join ($", ") (snd (fst e)) ++ $")".
