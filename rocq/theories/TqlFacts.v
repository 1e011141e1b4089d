(** * Lemmas: the reader of SpecTql reads what the generator writes *)
From Verif Require Export SpecScript Writer ValidateFacts NumFacts.

Lemma quoted_eq n : quoted n = [quote_char] ++ n ++ [quote_char].
Proof. reflexivity. Qed.

(** ** Scanning and splitting *)
Definition sbind (o : option bool) (s : str) : option bool := match o with Some q => scan q s | None => None end.
Lemma scan_app q a b : scan q (a ++ b) = sbind (scan q a) b.
Proof.
  revert q; induction a as [|c a IH]; intros q; simpl; [reflexivity|].
  destruct (Ascii.eqb c quote_char); [apply IH|]. destruct (_ && _); [reflexivity | apply IH].
Qed.
Definition prepend (a : str) (l : list str) : list str := match l with w :: ws => (a ++ w) :: ws | [] => [a] end.
Lemma split_semi_nonnil q s : split_semi q s <> [].
Proof.
  revert q; destruct s as [|c s]; intros q; simpl; [discriminate|].
  destruct (Ascii.eqb c quote_char); [destruct (split_semi (negb q) s); discriminate|].
  destruct (_ && _); [discriminate|]. destruct (split_semi q s); discriminate.
Qed.
Lemma cons_prepend c a l : l <> [] -> cons_head c (prepend a l) = prepend (c :: a) l.
Proof. destruct l; [contradiction|reflexivity]. Qed.
Lemma split_scan q a q' r : scan q a = Some q' -> split_semi q (a ++ r) = prepend a (split_semi q' r).
Proof.
  revert q; induction a as [|c a IH]; intros q; simpl.
  - intros H; inversion H; subst. pose proof (split_semi_nonnil q' r). destruct (split_semi q' r); [contradiction|reflexivity].
  - destruct (Ascii.eqb c quote_char).
    + intros H. rewrite (IH _ H), cons_prepend by apply split_semi_nonnil. reflexivity.
    + destruct (_ && _); [discriminate|]. intros H. rewrite (IH _ H), cons_prepend by apply split_semi_nonnil. reflexivity.
Qed.
Lemma split_stmt a r : scan false a = Some false -> split_semi false (a ++ $";" ++ r) = a :: split_semi false r.
Proof.
  intros H. rewrite (split_scan _ _ _ _ H). change ($";" ++ r) with (";"%char :: r). simpl. rewrite app_nil_r. reflexivity.
Qed.

Lemma lstrip_blank pre s : forallb is_space pre = true -> lstrip (pre ++ s) = lstrip s.
Proof.
  induction pre as [|c pre IH]; simpl; [reflexivity|]. intros H. apply andb_true_iff in H. destruct H as [-> H]. auto.
Qed.
Lemma scan_blank pre : forallb is_space pre = true -> scan false pre = Some false.
Proof.
  induction pre as [|c pre IH]; [reflexivity|]. cbn [forallb scan]. intros H. apply andb_true_iff in H. destruct H as [Hc H].
  destruct (Ascii.eqb_spec c quote_char) as [->|]; [discriminate|].
  destruct (Ascii.eqb_spec c ";"%char) as [->|]; [discriminate|]. simpl. auto.
Qed.

(** ** Scripts as sequences of blank texts and statements *)
Inductive item := Blank (s : str) | Stmt (body : str) (x : stmt).
Definition item_text (i : item) : str := match i with Blank s => s | Stmt b _ => b ++ $";" ++ [nl] end.
Definition item_stmt (i : item) : list stmt := match i with Blank _ => [] | Stmt _ x => [x] end.
Definition item_ok (i : item) : Prop :=
  match i with
  | Blank s => forallb is_space s = true
  | Stmt b x => scan false b = Some false /\ lstrip b = b /\ read_stmt b = Some x
  end.
Lemma read_items items pre : Forall item_ok items -> forallb is_space pre = true ->
  read_pieces (split_semi false (pre ++ flat_map item_text items)) = Some (flat_map item_stmt items).
Proof.
  intros H; revert pre; induction H as [|i items Hi H IH]; intros pre Hpre.
  - simpl. rewrite (split_scan _ _ _ [] (scan_blank _ Hpre)). cbn [split_semi prepend read_pieces flat_map].
    rewrite lstrip_blank by exact Hpre. reflexivity.
  - cbn [flat_map]. destruct i as [s|b x]; cbn [item_text item_stmt app].
    + rewrite app_assoc. apply IH. rewrite forallb_app, Hpre. exact Hi.
    + destruct Hi as [Hs [Hl Hr]].
      replace (pre ++ (b ++ $";" ++ [nl]) ++ flat_map item_text items)
        with ((pre ++ b) ++ $";" ++ ([nl] ++ flat_map item_text items))
        by (rewrite <- !app_assoc; reflexivity).
      rewrite split_stmt by (rewrite scan_app, (scan_blank _ Hpre); exact Hs).
      specialize (IH [nl] eq_refl).
      pose proof (split_semi_nonnil false ([nl] ++ flat_map item_text items)) as Hnn.
      destruct (split_semi false ([nl] ++ flat_map item_text items)) as [|w ws]; [contradiction|].
      cbn [read_pieces] in *. unfold read_stmt in *. rewrite lstrip_blank by exact Hpre.
      rewrite Hr, IH. reflexivity.
Qed.

(** ** Reader lemmas *)
Lemma lit_app l r : lit l (l ++ r) = Some (tt, r).
Proof. induction l as [|c l IH]; simpl; [reflexivity|]. rewrite Ascii.eqb_refl. exact IH. Qed.
Lemma rlit {A} l (f : unit -> reader A) r : rbind (lit l) f (l ++ r) = f tt r.
Proof. unfold rbind. rewrite lit_app. reflexivity. Qed.
Lemma rlit_end {A} l (f : unit -> reader A) : rbind (lit l) f l = f tt [].
Proof. unfold rbind. rewrite <- (app_nil_r l) at 2. rewrite lit_app. reflexivity. Qed.
Lemma lit_none l s : starts_with l s = false -> lit l s = None.
Proof.
  revert s; induction l as [|c l IH]; intros s; simpl; [discriminate|].
  destruct s as [|d s]; [reflexivity|]. destruct (Ascii.eqb c d); simpl; auto.
Qed.
Lemma rlit_none {A} l (f : unit -> reader A) s : starts_with l s = false -> rbind (lit l) f s = None.
Proof. intros H. unfold rbind. rewrite lit_none by exact H. reflexivity. Qed.
Lemma ralt_right {A} (m m' : reader A) s : m s = None -> ralt m m' s = m' s.
Proof. unfold ralt. intros ->. reflexivity. Qed.
Lemma ralt_left {A} (m m' : reader A) s x : m s = Some x -> ralt m m' s = Some x.
Proof. unfold ralt. intros ->. reflexivity. Qed.

Lemma upto_ok c n r : ~ In c n -> upto c (n ++ c :: r) = Some (n, r).
Proof.
  induction n as [|d n IH]; simpl; intros H.
  - rewrite Ascii.eqb_refl. reflexivity.
  - destruct (Ascii.eqb_spec c d) as [->|Hne]; [destruct H; left; reflexivity|].
    rewrite IH by tauto. reflexivity.
Qed.
Lemma rq_ok n r : quote_free n -> rq (quoted n ++ r) = Some (n, r).
Proof.
  intros H. unfold rq, quoted, rbind. change dq with quote_char. cbn [app lit].
  rewrite Ascii.eqb_refl. unfold rret. rewrite <- app_assoc. apply upto_ok, H.
Qed.
Lemma rrq {A} n (f : str -> reader A) r : quote_free n -> rbind rq f (quoted n ++ r) = f n r.
Proof. intros H. unfold rbind. rewrite rq_ok by exact H. reflexivity. Qed.
Lemma rrq_end {A} n (f : str -> reader A) : quote_free n -> rbind rq f (quoted n) = f n [].
Proof. intros H. rewrite <- (app_nil_r (quoted n)). apply rrq, H. Qed.

Lemma lts_cons n m l : list_to_string (n :: m :: l) true = quoted n ++ $", " ++ list_to_string (m :: l) true.
Proof. reflexivity. Qed.
Lemma rmore_ok fuel l r : Forall quote_free l -> starts_with ($", ") r = false -> length l <= fuel ->
  rmore fuel (flat_map (fun n => $", " ++ quoted n) l ++ r) = Some (l, r).
Proof.
  intros Hl Hr. revert fuel; induction Hl as [|n l Hn Hl IH]; intros fuel Hf.
  - destruct fuel; [reflexivity|]. cbn [flat_map app rmore]. rewrite ralt_right; [reflexivity|].
    apply rlit_none. exact Hr.
  - destruct fuel as [|fuel]; [simpl in Hf; lia|]. cbn [flat_map rmore].
    rewrite <- !app_assoc. apply ralt_left. rewrite rlit, rrq by exact Hn.
    unfold rbind. rewrite IH by (simpl in Hf; lia). reflexivity.
Qed.
Lemma lts_flat n l : list_to_string (n :: l) true = quoted n ++ flat_map (fun n => $", " ++ quoted n) l.
Proof.
  revert n; induction l as [|m l IH]; intros n.
  - simpl. rewrite app_nil_r. reflexivity.
  - rewrite lts_cons, IH. cbn [flat_map]. rewrite <- app_assoc. reflexivity.
Qed.
Lemma flat_len l : length l <= length (flat_map (fun n => $", " ++ quoted n) l).
Proof. induction l as [|n l IH]; [simpl; lia|]. cbn [flat_map length app]. rewrite !app_length.
  change (length ($", ")) with 2. lia. Qed.
Lemma rlist_ok l r : Forall quote_free l -> starts_with ($", ") r = false -> starts_with [quote_char] r = false ->
  rlist (list_to_string l true ++ r) = Some (l, r).
Proof.
  intros Hl Hr Hq. destruct l as [|n l].
  - unfold rlist. simpl. rewrite ralt_right; [reflexivity|]. unfold rq, rbind.
    rewrite lit_none; [reflexivity | exact Hq].
  - inversion Hl; subst. unfold rlist. apply ralt_left. rewrite lts_flat, <- app_assoc.
    rewrite rrq by assumption. unfold rbind. rewrite rmore_ok; [reflexivity|assumption|assumption|].
    rewrite !app_length. pose proof (flat_len l). lia.
Qed.
Lemma rrlist {A} l (f : list str -> reader A) r : Forall quote_free l -> starts_with ($", ") r = false ->
  starts_with [quote_char] r = false -> rbind rlist f (list_to_string l true ++ r) = f l r.
Proof. intros H1 H2 H3. unfold rbind. rewrite rlist_ok by assumption. reflexivity. Qed.

(** ** Scanning generated text *)
Lemma scan_quote_free n : quote_free n -> scan true n = Some true.
Proof.
  induction n as [|c n IH]; intros H; [reflexivity|]. cbn [scan].
  destruct (Ascii.eqb_spec c quote_char) as [->|]; [destruct H; left; reflexivity|].
  rewrite andb_false_r. apply IH. intros Hin; apply H; right; exact Hin.
Qed.
Lemma scan_quoted n : quote_free n -> scan false (quoted n) = Some false.
Proof.
  intros H. rewrite quoted_eq, !scan_app. change (scan false [quote_char]) with (Some true).
  cbn [sbind]. rewrite scan_app, scan_quote_free by exact H. reflexivity.
Qed.
Lemma scan_lts l : Forall quote_free l -> scan false (list_to_string l true) = Some false.
Proof.
  intros H. destruct l as [|n l]; [reflexivity|]. inversion H as [|? ? Hn Hl]; subst. rewrite lts_flat, scan_app, scan_quoted by exact Hn.
  cbn [sbind]. clear H Hn. induction Hl as [|m l Hm Hl IH]; [reflexivity|]. cbn [flat_map].
  rewrite scan_app, scan_app. change (scan false ($", ")) with (Some false). cbn [sbind].
  rewrite scan_quoted by exact Hm. exact IH.
Qed.
Lemma scan_plain ty : (forall c, In c ty -> c <> quote_char /\ c <> ";"%char) -> scan false ty = Some false.
Proof.
  induction ty as [|c ty IH]; intros H; [reflexivity|]. cbn [scan].
  destruct (H c (or_introl eq_refl)) as [H1 H2].
  destruct (Ascii.eqb_spec c quote_char); [contradiction|]. destruct (Ascii.eqb_spec c ";"%char); [contradiction|].
  simpl. apply IH. intros d Hd; apply H; right; exact Hd.
Qed.
Lemma scan_type ty : plain_type ty -> scan false ty = Some false.
Proof. intros H. apply scan_plain. intros c Hc. destruct (H c Hc) as [_ [_ [H1 H2]]]. auto. Qed.
Lemma scan_num z : scan false (z_to_str z) = Some false.
Proof.
  apply scan_plain. intros c Hc. apply z_to_str_chars in Hc. destruct Hc as [Hc| ->].
  - split; apply (digit_not _ _ Hc); reflexivity.
  - split; discriminate.
Qed.

(** ** Numbers *)
Lemma span_digits_ok ds r : forallb is_digit ds = true -> match r with c :: _ => is_digit c = false | [] => True end ->
  span_digits (ds ++ r) = (ds, r).
Proof.
  intros Hd Hr. induction ds as [|c ds IH].
  - simpl. destruct r as [|c r]; [reflexivity|]. cbn [span_digits]. rewrite Hr. reflexivity.
  - cbn [forallb] in Hd. apply andb_true_iff in Hd. destruct Hd as [Hc Hd]. cbn [app span_digits]. rewrite Hc, (IH Hd). reflexivity.
Qed.
Lemma decimal_val a s n : digits_val a s = Some n -> decimal (Z.of_N a) s = Z.of_N n.
Proof.
  revert a; induction s as [|c s IH]; intros a; cbn [digits_val decimal]; [congruence|].
  destruct (is_digit c); [|discriminate]. intros H. rewrite <- (IH _ H). f_equal. lia.
Qed.
Lemma rnum_pos n r : match r with c :: _ => is_digit c = false | [] => True end ->
  rnum (n_to_str n ++ r) = Some (Z.of_N n, r).
Proof.
  intros Hr. destruct (n_to_str_ok n) as [Hne [Hd Hv]]. unfold rnum.
  rewrite (span_digits_ok _ _ Hd Hr). apply decimal_val in Hv. simpl in Hv.
  destruct (n_to_str n) as [|c ds]; [contradiction|]. rewrite Hv. cbn [app].
  cbn [forallb] in Hd. apply andb_true_iff in Hd. destruct Hd as [Hc _].
  assert (c <> "-"%char) as Hm by (apply (digit_not _ _ Hc); reflexivity).
  destruct c as [[|] [|] [|] [|] [|] [|] [|] [|]]; try reflexivity. contradiction Hm. reflexivity.
Qed.
Lemma rnum_ok z r : match r with c :: _ => is_digit c = false | [] => True end ->
  rnum (z_to_str z ++ r) = Some (z, r).
Proof.
  intros Hr. destruct z as [|p|p]; unfold z_to_str.
  - cbn. destruct r as [|c r]; [reflexivity|]. cbn [span_digits]. rewrite Hr. reflexivity.
  - rewrite (rnum_pos _ _ Hr). reflexivity.
  - pose proof (n_to_str_ok (Npos p)) as [Hne [Hd Hv]]. unfold rnum. cbn [app].
    rewrite (span_digits_ok _ _ Hd Hr). apply decimal_val in Hv. simpl in Hv.
    destruct (n_to_str (N.pos p)); [contradiction|]. rewrite Hv. reflexivity.
Qed.
Lemma rrnum {A} z (f : Z -> reader A) r : match r with c :: _ => is_digit c = false | [] => True end ->
  rbind rnum f (z_to_str z ++ r) = f z r.
Proof. intros H. unfold rbind. rewrite rnum_ok by exact H. reflexivity. Qed.

(** ** Column lines *)
Lemma starts_with_longer p q s : starts_with p s = false -> starts_with (p ++ q) s = false.
Proof.
  intros H. destruct (starts_with (p ++ q) s) eqn:E; [|reflexivity]. apply starts_with_spec in E. destruct E as [r ->].
  rewrite <- H. symmetry. apply starts_with_spec. exists (q ++ r). rewrite app_assoc. reflexivity.
Qed.
Lemma rcol_ok n ty r : quote_free n -> plain_type ty ->
  rcol (quoted n ++ $" " ++ ty ++ [nl] ++ r) = Some ((n, ty), r).
Proof.
  intros Hn Ht. unfold rcol. rewrite rrq by exact Hn. rewrite rlit. unfold rbind.
  change ([nl] ++ r) with (newline_char :: r). rewrite upto_ok; [reflexivity|].
  intros Hin. destruct (Ht _ Hin) as [_ [H _]]. contradiction.
Qed.
Definition col_ok (x : str * str) : Prop := quote_free (fst x) /\ plain_type (snd x).
Definition more_cols (l : list (str * str)) : str :=
  flat_map (fun x => $"   ," ++ quoted (fst x) ++ $" " ++ snd x ++ [nl]) l.
Definition pk_line (pk : list str) : str :=
  if negb (Nat.eqb (length pk) 0) then $"   ,CONSTRAINT PRIMARY KEY (" ++ list_to_string pk true ++ $")" ++ [nl] else [].
Lemma rcols_ok fuel l pk r : Forall col_ok l -> Forall quote_free pk -> length l < fuel -> starts_with ($"   ,") r = false ->
  rcols fuel (more_cols l ++ pk_line pk ++ r) = Some ((l, pk), r).
Proof.
  intros Hl Hpk. revert fuel; induction Hl as [|[n ty] l [Hn Ht] Hl IH]; intros fuel Hf Hr.
  - destruct fuel as [|fuel]; [lia|]. cbn [more_cols flat_map app rcols]. unfold pk_line.
    destruct pk as [|k pk].
    + cbn [length Nat.eqb negb app]. rewrite ralt_right; [rewrite ralt_right; [reflexivity|]|].
      * apply rlit_none, Hr.
      * apply rlit_none. apply (starts_with_longer ($"   ,") ($"CONSTRAINT PRIMARY KEY (")), Hr.
    + cbn [length Nat.eqb negb]. apply ralt_left. rewrite <- !app_assoc, rlit, rrlist by (assumption || reflexivity).
      change ($")" ++ [nl] ++ r) with (($")" ++ [newline_char]) ++ r). rewrite rlit. reflexivity.
  - destruct fuel as [|fuel]; [simpl in Hf; lia|]. unfold more_cols. cbn [flat_map rcols fst snd]. fold (more_cols l).
    rewrite <- !app_assoc. simpl in Hn, Ht.
    rewrite ralt_right by (apply rlit_none; reflexivity). apply ralt_left. rewrite rlit. unfold rbind.
    rewrite rcol_ok by assumption. rewrite IH by (simpl in Hf; lia || assumption). reflexivity.
Qed.
Definition body_text (l : list (str * str)) : str :=
  match l with
  | [] => []
  | x :: l' => $"    " ++ quoted (fst x) ++ $" " ++ snd x ++ [nl] ++ more_cols l'
  end.
Lemma more_len l : length l <= length (more_cols l).
Proof.
  induction l as [|x l IH]; [simpl; lia|]. unfold more_cols in *. cbn [flat_map length].
  rewrite !app_length. change (length ($"   ,")) with 4. lia.
Qed.
Lemma rbody_ok l pk r : Forall col_ok l -> Forall quote_free pk -> (pk <> [] -> l <> []) ->
  starts_with ($"   ,") r = false -> starts_with ($"    ") r = false ->
  rbody (body_text l ++ pk_line pk ++ r) = Some ((l, pk), r).
Proof.
  intros Hl Hpk Hne Hr Hr'. destruct l as [|[n ty] l].
  - assert (pk = []) as -> by (destruct pk; [reflexivity|]; destruct Hne; congruence).
    cbn [body_text pk_line length Nat.eqb negb app]. unfold rbody. rewrite ralt_right; [reflexivity|]. apply rlit_none, Hr'.
  - inversion Hl as [|? ? [Hn Ht] Hl']; subst. simpl in Hn, Ht. unfold rbody. apply ralt_left. cbn [body_text fst snd].
    rewrite <- !app_assoc. rewrite rlit. unfold rbind. rewrite rcol_ok by assumption.
    rewrite rcols_ok; [reflexivity|assumption|assumption| |assumption].
    rewrite !app_length. pose proof (more_len l). change (length ($"    ")) with 4. lia.
Qed.

(** ** Statements of the creation script *)
Ltac rd := repeat first
  [ rewrite rlit | rewrite rrq by assumption | rewrite rlit_end | rewrite rrq_end by assumption
  | rewrite rrlist by (assumption || reflexivity) | rewrite rrnum by reflexivity
  | rewrite ralt_right by (apply rlit_none; reflexivity) ].
Lemma sbind_some q s : sbind (Some q) s = scan q s.
Proof. reflexivity. Qed.
Ltac sc :=
  repeat first [ rewrite sbind_some
               | rewrite scan_quoted by assumption | rewrite scan_lts by assumption | rewrite scan_num
               | rewrite scan_type by assumption
               | match goal with |- context[scan false (list_ascii_of_string ?l)] =>
                   change (scan false (list_ascii_of_string l)) with (Some false) end
               | match goal with |- context[scan false [newline_char]] => change (scan false [newline_char]) with (Some false) end
               | match goal with |- context[scan false [nl]] => change (scan false [nl]) with (Some false) end
               | rewrite scan_app ];
  try reflexivity.

Definition create_db_body (n : str) : str := $"CREATE DATABASE " ++ quoted n.
Lemma create_db_ok n : quote_free n -> item_ok (Stmt (create_db_body n) (SCreateDatabase n)).
Proof.
  intros H. unfold create_db_body. split; [sc|]. split; [reflexivity|]. unfold read_stmt, rstmt.
  change (lstrip ($"CREATE DATABASE " ++ quoted n)) with ($"CREATE DATABASE " ++ quoted n).
  erewrite ralt_left; [|rd; reflexivity]. reflexivity.
Qed.
Definition use_body (n : str) : str := $"USE " ++ quoted n.
Lemma use_ok n : quote_free n -> item_ok (Stmt (use_body n) (SUse n)).
Proof.
  intros H. unfold use_body. split; [sc|]. split; [reflexivity|]. unfold read_stmt, rstmt.
  change (lstrip ($"USE " ++ quoted n)) with ($"USE " ++ quoted n). rd.
  erewrite ralt_left; [|rd; reflexivity]. reflexivity.
Qed.
Definition create_schema_body (n : str) : str := $"CREATE SCHEMA " ++ quoted n.
Lemma create_schema_ok n : quote_free n -> item_ok (Stmt (create_schema_body n) (SCreateSchema n)).
Proof.
  intros H. unfold create_schema_body. split; [sc|]. split; [reflexivity|]. unfold read_stmt, rstmt.
  change (lstrip ($"CREATE SCHEMA " ++ quoted n)) with ($"CREATE SCHEMA " ++ quoted n). rd.
  erewrite ralt_left; [|rd; reflexivity]. reflexivity.
Qed.
Definition drop_table_body (s t : str) : str := $"DROP TABLE " ++ quoted s ++ $"." ++ quoted t.
Lemma drop_table_ok s t : quote_free s -> quote_free t -> item_ok (Stmt (drop_table_body s t) (SDropTable s t)).
Proof.
  intros H H'. unfold drop_table_body. split; [sc|]. split; [reflexivity|]. unfold read_stmt, rstmt.
  change (lstrip ($"DROP TABLE " ++ quoted s ++ $"." ++ quoted t)) with ($"DROP TABLE " ++ quoted s ++ $"." ++ quoted t). rd.
  erewrite ralt_left; [|rd; reflexivity]. reflexivity.
Qed.

Definition shard_text (sh : option (Z * list str)) : str :=
  match sh with
  | Some (n, l) => $" PARTITION BY HASH(" ++ z_to_str n ++ $") KEY(" ++ list_to_string l true ++ $")"
  | None => []
  end.
Definition create_table_body (s t : str) (cols : list (str * str)) (pk : list str) (sh : option (Z * list str)) : str :=
  $"CREATE TABLE " ++ quoted s ++ $"." ++ quoted t ++ ($" (" ++ [newline_char]) ++ body_text cols ++ pk_line pk ++ $")" ++ shard_text sh.
Definition shard_quote_free (sh : option (Z * list str)) : Prop := match sh with Some (_, l) => Forall quote_free l | None => True end.
Lemma scan_more l : Forall col_ok l -> scan false (more_cols l) = Some false.
Proof.
  induction 1 as [|[n ty] l [Hn Ht] Hl IH]; [reflexivity|]. simpl in Hn, Ht. unfold more_cols in *. cbn [flat_map fst snd].
  rewrite scan_app. assert (scan false ($"   ," ++ quoted n ++ $" " ++ ty ++ [nl]) = Some false) as -> by sc. exact IH.
Qed.
Lemma scan_body l : Forall col_ok l -> scan false (body_text l) = Some false.
Proof.
  intros H. destruct H as [|[n ty] l [Hn Ht] Hl]; [reflexivity|]. simpl in Hn, Ht. cbn [body_text fst snd].
  rewrite !app_assoc, scan_app, <- !app_assoc.
  assert (scan false ($"    " ++ quoted n ++ $" " ++ ty ++ [nl]) = Some false) as -> by sc. apply scan_more, Hl.
Qed.
Lemma scan_pk_line pk : Forall quote_free pk -> scan false (pk_line pk) = Some false.
Proof. intros H. unfold pk_line. destruct (negb _); [|reflexivity]. sc. Qed.
Lemma scan_shard sh : shard_quote_free sh -> scan false (shard_text sh) = Some false.
Proof. destruct sh as [[n l]|]; [|reflexivity]. cbn [shard_quote_free shard_text]. intros H. sc. Qed.
Lemma create_table_ok s t cols pk sh : quote_free s -> quote_free t -> Forall col_ok cols -> Forall quote_free pk ->
  (pk <> [] -> cols <> []) -> shard_quote_free sh ->
  item_ok (Stmt (create_table_body s t cols pk sh) (SCreateTable s t cols pk sh)).
Proof.
  intros Hs Ht Hc Hpk Hne Hsh. split; [|split; [reflexivity|]].
  - unfold create_table_body.
    repeat first [ progress sc | rewrite scan_body by exact Hc | rewrite scan_pk_line by exact Hpk ].
    rewrite scan_shard by exact Hsh. reflexivity.
  - unfold read_stmt.
    change (lstrip (create_table_body s t cols pk sh)) with (create_table_body s t cols pk sh).
    assert (rcreate_table (create_table_body s t cols pk sh) = Some (SCreateTable s t cols pk sh, [])) as H.
    { unfold rcreate_table, create_table_body. rd. unfold rbind at 1. rewrite rbody_ok by (assumption || reflexivity).
      rewrite rlit. unfold rbind at 1. unfold rshard. destruct sh as [[n l]|].
      - erewrite ralt_left; [|unfold shard_text; rd; reflexivity]. reflexivity.
      - rewrite ralt_right; [reflexivity|]. reflexivity. }
    unfold rstmt. unfold create_table_body at 1. do 4 rewrite ralt_right by (apply rlit_none; reflexivity).
    erewrite ralt_left; [|exact H]. reflexivity.
Qed.

Lemma alter_ok s t rest x r : quote_free s -> quote_free t -> scan false rest = Some false -> ralter s t rest = Some (x, r) ->
  item_ok (Stmt (alter_head s t ++ rest) x).
Proof.
  intros Hs Ht Hr Hx. unfold alter_head. rewrite <- !app_assoc. split; [sc; exact Hr|]. split; [reflexivity|].
  unfold read_stmt, rstmt.
  change (lstrip ($"ALTER TABLE " ++ quoted s ++ $"." ++ quoted t ++ $" " ++ rest)) with ($"ALTER TABLE " ++ quoted s ++ $"." ++ quoted t ++ $" " ++ rest).
  do 4 rewrite ralt_right by (apply rlit_none; reflexivity).
  rewrite ralt_right by (unfold rcreate_table; apply rlit_none; reflexivity). rd. rewrite Hx. reflexivity.
Qed.

Definition fk_rest (n : str) (fc : list str) (ts tot : str) (tc : list str) : str :=
  $"ADD CONSTRAINT " ++ quoted n ++ $" FOREIGN KEY (" ++ list_to_string fc true ++ $") REFERENCES " ++ quoted ts ++ $"."
  ++ quoted tot ++ $" (" ++ list_to_string tc true ++ $")".
Lemma fk_ok s t n fc ts tot tc : quote_free s -> quote_free t -> quote_free n -> Forall quote_free fc -> quote_free ts ->
  quote_free tot -> Forall quote_free tc ->
  item_ok (Stmt (alter_head s t ++ fk_rest n fc ts tot tc) (SAddFk s t n fc ts tot tc)).
Proof.
  intros. apply (alter_ok _ _ _ _ []); try assumption; unfold fk_rest; [sc|].
  unfold ralter. rewrite ralt_right by (apply rlit_none; reflexivity). apply ralt_left. rd. reflexivity.
Qed.
Definition rel_rest (n ts tot c : str) : str :=
  $"ADD RELATIONSHIP " ++ quoted n ++ $" WITH " ++ quoted ts ++ $"." ++ quoted tot ++ $" AS " ++ c.
Lemma rel_ok_stmt s t n ts tot c : quote_free s -> quote_free t -> quote_free n -> quote_free ts ->
  quote_free tot -> plain_condition c ->
  item_ok (Stmt (alter_head s t ++ rel_rest n ts tot c) (SAddRel s t n ts tot c)).
Proof.
  intros ? ? ? ? ? Hc. apply (alter_ok _ _ _ _ []); try assumption; unfold rel_rest; [sc; exact Hc|].
  unfold ralter. do 2 rewrite ralt_right by (apply rlit_none; reflexivity). apply ralt_left. rd.
  apply ralt_left. rd. reflexivity.
Qed.

(** ** Statements of ALTER scripts *)
Definition afk_rest (n : str) (fc : list str) (tot : str) (tc : list str) : str :=
  $"ADD CONSTRAINT FOREIGN KEY " ++ quoted n ++ $" (" ++ list_to_string fc true ++ $") REFERENCES "
  ++ quoted tot ++ $" (" ++ list_to_string tc true ++ $")".
Lemma afk_ok s t n fc tot tc : quote_free s -> quote_free t -> quote_free n -> Forall quote_free fc ->
  quote_free tot -> Forall quote_free tc ->
  item_ok (Stmt (alter_head s t ++ afk_rest n fc tot tc) (SAlterAddFk s t n fc tot tc)).
Proof.
  intros. apply (alter_ok _ _ _ _ []); try assumption; unfold afk_rest; [sc|]. unfold ralter. apply ralt_left. rd. reflexivity.
Qed.
Definition arel_rest (n tot c : str) : str := $"ADD RELATIONSHIP " ++ quoted n ++ $" WITH " ++ quoted tot ++ $" AS " ++ c.
Lemma arel_ok s t n tot c : quote_free s -> quote_free t -> quote_free n ->
  quote_free tot -> plain_condition c ->
  item_ok (Stmt (alter_head s t ++ arel_rest n tot c) (SAlterAddRel s t n tot c)).
Proof.
  intros ? ? ? ? Hc. apply (alter_ok _ _ _ _ []); try assumption; unfold arel_rest; [sc; exact Hc|].
  unfold ralter. do 2 rewrite ralt_right by (apply rlit_none; reflexivity). apply ralt_left. rd. reflexivity.
Qed.
Lemma drop_pk_ok s t : quote_free s -> quote_free t ->
  item_ok (Stmt (alter_head s t ++ $"DROP CONSTRAINT PRIMARY KEY") (SDropPk s t)).
Proof.
  intros. apply (alter_ok _ _ _ _ []); try assumption; [sc|]. unfold ralter.
  do 3 rewrite ralt_right by (apply rlit_none; reflexivity). apply ralt_left. rd. reflexivity.
Qed.
Lemma drop_constraint_ok s t n : quote_free s -> quote_free t -> quote_free n ->
  item_ok (Stmt (alter_head s t ++ $"DROP CONSTRAINT " ++ quoted n) (SDropConstraint s t n)).
Proof.
  intros. apply (alter_ok _ _ _ _ []); try assumption; [sc|]. unfold ralter.
  do 4 rewrite ralt_right by (apply rlit_none; reflexivity). apply ralt_left. rd. reflexivity.
Qed.
Lemma set_partition_ok s t n l : quote_free s -> quote_free t -> Forall quote_free l ->
  item_ok (Stmt (alter_head s t ++ $"SET FACT PARTITION BY HASH (" ++ z_to_str n ++ $") KEY (" ++ list_to_string l true ++ $")")
    (SSetPartition s t n l)).
Proof.
  intros. apply (alter_ok _ _ _ _ []); try assumption; [sc|]. unfold ralter.
  do 5 rewrite ralt_right by (apply rlit_none; reflexivity). apply ralt_left. rd. reflexivity.
Qed.
Lemma set_dimension_ok s t : quote_free s -> quote_free t ->
  item_ok (Stmt (alter_head s t ++ $"SET DIMENSIONS") (SSetDimension s t)).
Proof.
  intros. apply (alter_ok _ _ _ _ []); try assumption; [sc|]. unfold ralter.
  do 6 rewrite ralt_right by (apply rlit_none; reflexivity). apply ralt_left. rd. reflexivity.
Qed.
Lemma rword_ok w r : ~ In " "%char w -> match r with c :: _ => c = " "%char | [] => True end ->
  rword (w ++ r) = Some (w, r).
Proof.
  intros Hw Hr. induction w as [|c w IH].
  - destruct r as [|c r]; [reflexivity|]. subst c. reflexivity.
  - cbn [app rword]. destruct (Ascii.eqb_spec c " "%char) as [->|]; [destruct Hw; left; reflexivity|].
    rewrite IH by (intros Hin; apply Hw; right; exact Hin). reflexivity.
Qed.
Lemma plain_no_space ty : plain_type ty -> ~ In " "%char ty.
Proof. intros H Hin. destruct (H _ Hin) as [Hc _]. contradiction. Qed.
Lemma add_column_ok s t n ty df : quote_free s -> quote_free t -> quote_free n -> plain_type ty -> scan false df = Some false ->
  item_ok (Stmt (alter_head s t ++ $"ADD COLUMN " ++ quoted n ++ $" " ++ ty ++ $" DEFAULT " ++ df) (SAddColumn s t n ty df)).
Proof.
  intros ? ? ? Ht Hd. apply (alter_ok _ _ _ _ []); try assumption; [sc; exact Hd|]. unfold ralter.
  do 7 rewrite ralt_right by (apply rlit_none; reflexivity). apply ralt_left. rd.
  unfold rbind at 1. rewrite rword_ok by (apply plain_no_space, Ht || reflexivity). rd. reflexivity.
Qed.
Lemma modify_column_ok s t n ty : quote_free s -> quote_free t -> quote_free n -> plain_type ty ->
  item_ok (Stmt (alter_head s t ++ $"MODIFY COLUMN " ++ quoted n ++ $" " ++ ty) (SModifyColumn s t n ty)).
Proof.
  intros ? ? ? Ht. apply (alter_ok _ _ _ _ []); try assumption; [sc|]. unfold ralter.
  do 8 rewrite ralt_right by (apply rlit_none; reflexivity). apply ralt_left. rd.
  unfold rbind at 1. assert (rword ty = Some (ty, [])) as ->; [|reflexivity].
  rewrite <- (app_nil_r ty) at 1. apply rword_ok; [apply plain_no_space, Ht | exact I].
Qed.
Lemma drop_column_ok s t n : quote_free s -> quote_free t -> quote_free n ->
  item_ok (Stmt (alter_head s t ++ $"DROP COLUMN " ++ quoted n) (SDropColumn s t n)).
Proof.
  intros. apply (alter_ok _ _ _ _ []); try assumption; [sc|]. unfold ralter.
  do 9 rewrite ralt_right by (apply rlit_none; reflexivity). rd. reflexivity.
Qed.

(** ** The generator's texts as items *)
Lemma to_case_quote_free o n n' : quote_free n -> to_case o n = Ok n' -> quote_free n'.
Proof.
  assert (Hup : forall c, upper_char c = quote_char -> c = quote_char).
  { intros c. unfold upper_char. destruct (Nat.leb_spec 97 (ord c)), (Nat.leb_spec (ord c) 122); simpl; auto.
    intros H'. apply (f_equal ord) in H'. rewrite ord_chr in H' by lia. change (ord quote_char) with 34 in H'. lia. }
  assert (Hlo : forall c, lower_char c = quote_char -> c = quote_char).
  { intros c. unfold lower_char. destruct (Nat.leb_spec 65 (ord c)), (Nat.leb_spec (ord c) 90); simpl; auto.
    intros H'. apply (f_equal ord) in H'. rewrite ord_chr in H' by lia. change (ord quote_char) with 34 in H'. lia. }
  intros Hn. unfold to_case. destruct (str_eqb n DEFAULT_SCHEMA); [intros H; inversion H; subst; exact Hn|].
  destruct (lowercase o); [|destruct (uppercase o); [|destruct (camelcase o)]]; intros H.
  - inversion H; subst. intros Hin. apply in_map_iff in Hin. destruct Hin as [c [Hc Hin]]. apply Hlo in Hc. subst. contradiction.
  - inversion H; subst. intros Hin. apply in_map_iff in Hin. destruct Hin as [c [Hc Hin]]. apply Hup in Hc. subst. contradiction.
  - assert (Hl : forall (c : ascii) (l : str), incl (lstrip_char c l) l).
    { intros c l. induction l as [|d l IH]; simpl; [apply incl_refl|]. destruct (Ascii.eqb d c); [apply incl_tl, IH | apply incl_refl]. }
    assert (Hstrip : incl (strip_char "_" n) n).
    { unfold strip_char. intros c Hc. apply in_rev in Hc. apply Hl in Hc. apply in_rev in Hc. apply Hl in Hc. exact Hc. }
    unfold to_camel in H. destruct (strip_char "_" n) as [|c s]; [discriminate|]. inversion H; subst. clear H.
    assert (Hq : quote_free (c :: s)) by (intros Hin; apply Hn, Hstrip, Hin). clear -Hq Hup.
    assert (Hc : c <> quote_char) by (intros ->; apply Hq; left; reflexivity).
    assert (Hs : quote_free s) by (intros Hin; apply Hq; right; exact Hin). clear Hq.
    intros [Hin|Hin]; [apply Hup in Hin; contradiction|]. clear Hc.
    assert (forall k s, length s <= k -> quote_free s -> ~ In quote_char (camel_loop s)) as Hk.
    { clear -Hup. induction k as [|k IH]; intros s Hl Hs Hin.
      - destruct s; [|simpl in Hl; lia]. destruct Hin.
      - destruct s as [|a s]; [destruct Hin|]. cbn [camel_loop] in Hin. destruct (negb (Ascii.eqb a "_")).
        + destruct Hin as [->|Hin]; [apply Hs; left; reflexivity|]. apply (IH s); [simpl in Hl; lia| |exact Hin].
          intros Hx; apply Hs; right; exact Hx.
        + destruct s as [|b s]; [destruct Hin|]. destruct Hin as [Hin|Hin].
          * apply Hup in Hin. subst. apply Hs. right; left; reflexivity.
          * apply (IH s); [simpl in Hl; lia| |exact Hin]. intros Hx; apply Hs; right; right; exact Hx. }
    exact (Hk (length s) s (le_n _) Hs Hin).
  - inversion H; subst; exact Hn.
Qed.

Lemma Ok_inj {A} (a b : A) : Ok a = Ok b -> a = b.
Proof. congruence. Qed.
Lemma cased_ok o n n' : to_case o n = Ok n' -> cased o n = n'.
Proof. unfold cased. intros ->. reflexivity. Qed.

Lemma column_case_eq o n : column_case o n = col_cased o n.
Proof. reflexivity. Qed.
Definition cols_of (o : case_opts) (t : table) : list (str * str) :=
  map (fun c => (col_cased o (column_name c), column_type c)) (table_iter t).
Lemma column_lines_more o cs : column_lines o false cs = more_cols (map (fun c => (col_cased o (column_name c), column_type c)) cs).
Proof.
  induction cs as [|c cs IH]; [reflexivity|]. unfold more_cols in *. cbn [column_lines map flat_map fst snd]. rewrite IH.
  rewrite <- !app_assoc. reflexivity.
Qed.
Lemma column_lines_body o cs : column_lines o true cs = body_text (map (fun c => (col_cased o (column_name c), column_type c)) cs).
Proof.
  destruct cs as [|c cs]; [reflexivity|]. cbn [column_lines map body_text fst snd]. rewrite column_lines_more. reflexivity.
Qed.

Lemma gen_create_table_body o t txt : gen_create_table o t = Ok txt ->
  to_case o (t_name t) = Ok (cased o (t_name t)) /\ to_case o (t_schema t) = Ok (cased o (t_schema t))
  /\ txt = create_table_body (cased o (t_schema t)) (cased o (t_name t)) (cols_of o t) (t_pk t) (shard_of t) ++ $";" ++ [nl].
Proof.
  unfold gen_create_table. destruct (to_case o (t_name t)) as [n|] eqn:En; [|discriminate].
  destruct (to_case o (t_schema t)) as [s|] eqn:Es; [|discriminate]. cbn [bind].
  rewrite (cased_ok _ _ _ En), (cased_ok _ _ _ Es). intros H. split; [reflexivity|]. split; [reflexivity|].
  unfold create_table_body, shard_of, cols_of. rewrite <- column_lines_body.
  set (C := column_lines o true (table_iter t)) in *. change newline_char with nl.
  assert (Hpk : forall x, (if negb (length (t_pk t) =? 0) then x ++ $"   ,CONSTRAINT PRIMARY KEY (" ++ list_to_string (t_pk t) true ++ $")" ++ [nl] else x)
                          = x ++ pk_line (t_pk t)).
  { intros x. unfold pk_line. destruct (negb _); [reflexivity | rewrite app_nil_r; reflexivity]. }
  rewrite Hpk in H.
  destruct (t_shard t) as [sk|]; apply Ok_inj in H; subst txt; clear; unfold shard_text.
  - change ($") PARTITION BY HASH(") with ($")" ++ $" PARTITION BY HASH("). change ($");") with ($")" ++ $";").
    rewrite <- !app_assoc. reflexivity.
  - change ($");") with ($")" ++ $";"). rewrite <- !app_assoc. reflexivity.
Qed.
