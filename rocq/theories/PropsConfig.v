(** * Properties of configuration files (C46, C47) *)
From Verif Require Import ConfigFacts.

(** C46: what loading a file does.  [es] are the assignments of its lines in order, [os] the other
    lines that are not blank: a key has the value assigned last, other keys keep theirs, and each of
    the other lines gives a warning. *)
Theorem C46_load : forall files c f text t raws es os, files f = Some text ->
  newlines_read text t -> in_lines t raws -> reads_as raws es os ->
  exists c' ms, load_from_file files c f = (c', true, ms)
    /\ (forall k o, last_value k es o -> cfg_getitem c' k = match o with Some v => Some v | None => cfg_getitem c k end)
    /\ Forall2 (fun w l => w = BadlyFormed l /\ In "="%char l \/ w = Ignoring l /\ ~ In "="%char l) ms os.
Proof.
  intros files c f text t raws es os E N L R. destruct (c46 c text t raws es os N L R) as [c' [ms [Q [F [G _]]]]]. exists c', ms.
  unfold load_from_file. rewrite E, Q. split; [reflexivity|]. split; [|exact F].
  intros k o H. unfold cfg_getitem, cfg_get. rewrite (G k o H). destruct o; [reflexivity|]. destruct (dget k c); reflexivity.
Qed.
Print Assumptions C46_load.
(** every text is made of such lines, in one way only, and every key is assigned last or never *)
Theorem C46_any_text : forall text, exists t raws es os, newlines_read text t /\ in_lines t raws /\ reads_as raws es os
  /\ (forall es' os', reads_as raws es' os' -> es' = es /\ os' = os) /\ (forall k, exists o, last_value k es o).
Proof.
  intros text. destruct (load_text_spec [] text) as [t [raws [es [os [ms [N [L [R _]]]]]]]]. exists t, raws, es, os. split; [exact N|]. split; [exact L|]. split; [exact R|].
  split; [intros es' os' R'; exact (reads_as_fun _ _ _ R' _ _ R)|]. intros k. apply last_value_exists.
Qed.
Print Assumptions C46_any_text.
(** everything loaded is clean; nothing else is added *)
Theorem C46_clean : forall files c f c' ok ms, load_from_file files c f = (c', ok, ms) ->
  forall k v, In (k, v) c' -> In (k, v) c \/ (clean_word k /\ ~ In "="%char k /\ clean_word v).
Proof.
  intros files c f c' ok ms. unfold load_from_file. destruct (files f) as [text|].
  - pose proof (c46_items c text) as H. destruct (load_text c text) as [c1 w1]. intros E k v I. injection E as <- _ _. exact (H k v I).
  - intros E k v I. injection E as <- _ _. left. exact I.
Qed.
Print Assumptions C46_clean.
(** a file that cannot be opened *)
Theorem C46_missing : forall files c f, files f = None -> load_from_file files c f = (c, false, [CannotOpen]).
Proof. intros files c f E. unfold load_from_file. rewrite E. reflexivity. Qed.
Print Assumptions C46_missing.
Example C46_case : load_from_file (fun f => if str_eqb f ($"c.ini") then Some ($"a = 1 # one" ++ [lf] ++ $"=2" ++ [cr; lf] ++ $"noise" ++ [lf] ++ $"  # only" ++ [lf] ++ $"a= x = y ") else None)
    [($"b", $"0")] ($"c.ini")
  = ([($"b", $"0"); ($"a", $"x = y")], true, [BadlyFormed ($"=2"); Ignoring ($"noise")]).
Proof. vm_compute. reflexivity. Qed.

(** C47: a configuration of clean strings is read back as it was written, in the same order. *)
Theorem C47_write_load : forall files can_write c f files' ws, clean_config c -> can_write f = true ->
  write_to_file files can_write c f = (files', true, ws) ->
  load_from_file files' [] f = (c, true, []) /\ cfg_eqb c c = true
  /\ (forall g, g <> f -> files' g = files g).
Proof.
  intros files can_write c f files' ws H W E. unfold write_to_file in E. rewrite W in E. injection E as <- _. split; [|split].
  - unfold load_from_file. rewrite str_eqb_refl, reload by exact H. reflexivity.
  - apply cfg_eqb_spec; [apply H|apply H|]. intros k v. reflexivity.
  - intros g D. destruct (str_eqb_spec g f); [contradiction|reflexivity].
Qed.
Print Assumptions C47_write_load.
(** and only such configurations are *)
Theorem C47_exact : forall c, NoDup (map fst c) ->
  cfg_eqb (fst (load_text [] (config_text c))) c = true <-> clean_config c.
Proof. exact c47_exact. Qed.
Print Assumptions C47_exact.
(** load, write, load is load *)
Theorem C47_load_write_load : forall files can_write f g c ws files' ws', load_from_file files [] f = (c, true, ws) -> can_write g = true ->
  write_to_file files can_write c g = (files', true, ws') -> load_from_file files' [] g = (c, true, []).
Proof.
  intros files can_write f g c ws files' ws' L W E. assert (C : clean_config c).
  { unfold load_from_file in L. destruct (files f) as [text|]; [|discriminate L]. assert (C0 : clean_config []) by (split; [constructor|intros k v []]).
    pose proof (c46_clean [] text C0) as H. destruct (load_text [] text) as [c1 w1]. injection L as <- _. exact H. }
  unfold write_to_file in E. rewrite W in E. injection E as <- _. unfold load_from_file. rewrite str_eqb_refl, reload by exact C. reflexivity.
Qed.
Print Assumptions C47_load_write_load.
(** equality of configurations is having the same items *)
Theorem C47_equality : forall a b, NoDup (map fst a) -> NoDup (map fst b) -> cfg_eqb a b = true <-> same_items a b.
Proof. exact cfg_eqb_spec. Qed.
Print Assumptions C47_equality.
Example C47_case : clean_config [($"max chain", $"3"); ($"rows", $"a = b")].
Proof.
  assert (W : forall s, str_eqb s [] = false -> strip s = s -> forallb (fun c => negb (Ascii.eqb c "#") && negb (Ascii.eqb c lf) && negb (Ascii.eqb c cr)) s = true -> clean_word s).
  { intros s H1 H2 H3. rewrite forallb_forall in H3. constructor.
    - intros ->. discriminate. - rewrite <- H2. apply strip_trimmed. - intros I. specialize (H3 _ I). discriminate. - split; intros I; specialize (H3 _ I); discriminate. }
  split; [repeat constructor; cbn; intuition discriminate|]. intros k v I.
  destruct I as [E|[E|[]]]; apply pair_equal_spec in E; destruct E as [<- <-]; (split; [apply W; reflexivity|split; [intros I; cbn in I; intuition discriminate|apply W; reflexivity]]).
Qed.
(** a value holding the comment mark is not read back *)
Example C47_hash : fst (load_text [] (config_text [($"a", $"1#2")])) = [($"a", $"1")].
Proof. vm_compute. reflexivity. Qed.

(** C46, reading values: [get] returns what was stored last under the name, and the default if there
    is nothing. *)
Theorem C46_get : forall c k v name default,
  cfg_get (cfg_set c k v) (Some k) default = Some v
  /\ (name <> Some k -> cfg_get (cfg_set c k v) name default = cfg_get c name default)
  /\ (name = None \/ (forall x y, In (x, y) c -> name <> Some x) -> cfg_get c name default = default).
Proof.
  intros c k v name default. unfold cfg_get, cfg_set. split; [rewrite dget_dset, str_eqb_refl; reflexivity|]. split.
  - intros N. destruct name as [x|]; [|reflexivity]. rewrite dget_dset. destruct (str_eqb_spec x k) as [->|_]; [contradiction|reflexivity].
  - intros [->|H]; [reflexivity|]. destruct name as [x|]; [|reflexivity]. destruct (dget x c) as [y|] eqn:E; [|reflexivity]. exfalso. apply (H x y); [|reflexivity]. clear H. induction c as [|[a b] c IH]; [discriminate|]. cbn [dget] in E. destruct (str_eqb_spec x a) as [->|_]; [injection E as ->; left; reflexivity|right; apply IH, E].
Qed.
Print Assumptions C46_get.
Example C46_get_case : cfg_get (cfg_set [($"a", $"1")] ($"b") ($"2")) (Some ($"c")) (Some ($"0")) = Some ($"0").
Proof. reflexivity. Qed.
