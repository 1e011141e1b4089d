(** * Lemmas: what every database of an Excel reader is like (C114) *)
From Verif Require Import StrFacts ExcelMore TypeFacts GenFacts CleanFacts.
From Verif Require Export LeftFacts ApiFacts SpecSound.
From Coq Require Import List Lia. Import ListNotations.

(** ** Cells with several names *)
Lemma cell_keys_listed s : listed_names (cell_keys s).
Proof.
  intros k I. unfold cell_keys in I. apply in_map_iff in I. destruct I as [x [<- I]]. split; [apply strip_trimmed|].
  intros C. apply CleanFacts.in_strip in C. pose proof (split_char_parts ","%char s) as P. rewrite Forall_forall in P. exact (P x I C).
Qed.
Lemma cell_keys_some s : cell_keys s <> [].
Proof. unfold cell_keys. intros E. apply map_eq_nil in E. exact (split_char_nonnil _ _ E). Qed.

(** ** One table *)
Lemma sound_new n s pk sk : (forall k, pk = Some k -> listed_names (keys_list k)) -> (forall x, sk = Some x -> sk_keys x <> [] /\ listed_names (sk_keys x) /\ sk_shards x <> 0%Z) ->
  sound_table (mk_table n s pk sk).
Proof.
  intros P S. split.
  - cbn [mk_table t_pk]. destruct pk as [k|]; [exact (P k eq_refl)|intros x []].
  - exact S.
  - intros x [].
  - intros x [].
  - intros x [].
Qed.
Lemma sound_column t name type c : sound_table t -> mk_column (Some name) (Some type) = Ok c -> sound_table (add_column t c).
Proof.
  intros [A B C D E] M. split; try assumption. intros x I. apply in_dvals_dset in I. destruct I as [->|I]; [|exact (C x I)].
  destruct (mk_column_spec name type) as [V N]. destruct (in_dec (list_eq_dec Ascii.ascii_dec) type VALID_TYPES) as [I|I].
  - rewrite (V (or_introl I)) in M. apply ok_inj in M. subst c. left. exact I.
  - destruct (starts_with ($"VARCHAR") type) eqn:W.
    + apply starts_with_spec in W. rewrite (V (or_intror W)) in M. apply ok_inj in M. subst c. right. exact W.
    + rewrite N in M; [discriminate|exact I|]. intros Q. apply starts_with_spec in Q. congruence.
Qed.
Lemma sound_fk t f tb k n t' : sound_table t -> add_fk_parts t (Some (KeyList (cell_keys f))) tb (Some (KeyList (cell_keys k))) n = Ok t' -> sound_table t'.
Proof.
  intros [A B C D E] M. unfold add_fk_parts, mk_foreign_key in M. destruct tb as [tb|]; [|discriminate]. cbn [keys_list] in M.
  destruct (Nat.eqb_spec (length (cell_keys f)) (length (cell_keys k))) as [L|]; [|discriminate]. cbn [negb bind] in M. apply ok_inj in M. subst t'.
  split; try assumption. intros x I. apply in_dvals_dset in I. destruct I as [->|I]; [|exact (D x I)]. cbn [fk_from_table fk_from_keys fk_to_keys].
  split; [reflexivity|]. split; [apply cell_keys_some|]. split; [exact L|]. split; apply cell_keys_listed.
Qed.
Lemma sound_rel t tb c t' : sound_table t -> add_rel_parts t tb None c = Ok t' -> sound_table t'.
Proof.
  intros [A B C D E] M. unfold add_rel_parts, mk_relationship in M. destruct tb as [tb|], c as [c|]; try discriminate. cbn [bind] in M. apply ok_inj in M. subst t'.
  split; try assumption. intros x I. apply in_dvals_dset in I. destruct I as [->|I]; [|exact (E x I)]. split; reflexivity.
Qed.

(** ** The databases of a reader *)
Record fine_db (n : str) (d : database) : Prop := {
  fd_name : db_name d = n /\ n <> []; fd_inv : db_inv d; fd_ok : tables_ok d; fd_sound : forall t, In t (db_iter d) -> sound_table t }.
Definition fine (dbs : dict database) : Prop := forall n d, dget n dbs = Some d -> fine_db n d.
Lemma fine_sound n d : fine_db n d -> sound_db n d.
Proof.
  intros [A I [T1 T2] S]. split; [exact A| |exact S]. split; [split; [apply I|exact T1]| |exact T2]. split; [apply I|].
  intros t Ht. apply dget_some_in. destruct (inv_cover _ I (t_schema t)) as [k [Hk _]]; [|eauto].
  apply dvals_in in Ht. destruct Ht as [k Hk]. eapply dget_count. apply dget_nodup; [apply I|exact Hk].
Qed.
Lemma fine_empty n : n <> [] -> fine_db n (empty_database n).
Proof. intros N. split; [split; [reflexivity|exact N]|apply db_inv_empty| |intros t []]. split; [intros x v H; discriminate|intros t []]. Qed.
Lemma fine_set n d dbs : fine dbs -> fine_db n d -> fine (dset n d dbs).
Proof. intros F D x y. rewrite dget_dset. destruct (str_eqb_spec x n) as [->|_]; [intros E; injection E as <-; exact D|apply F]. Qed.
Lemma fine_add n d name schema pk sk : fine_db n d -> sound_table (mk_table name schema pk sk) -> fine_db n (add_table d (mk_table name schema pk sk)).
Proof.
  intros [[A N] I T S] U. destruct (run_api_op_ok d (ApiAddTable name schema pk sk []) _ I T eq_refl) as [I' [T' N']].
  split; [split; [etransitivity; [exact N'|exact A]|exact N]|exact I'|exact T'|]. intros t H. apply in_dvals_dset in H. destruct H as [->|H]; [exact U|exact (S t H)].
Qed.
Lemma fine_store n d name t t' o : fine_db n d -> get_table d name = Some t -> t' = run_table_op t o -> sound_table t' -> fine_db n (store_table d name t').
Proof.
  intros [[A N] I T S] G -> U. destruct (run_api_op_ok d (ApiOnTable name o) (store_table d name (run_table_op t o)) I T) as [I' [T' N']]; [cbn [run_api_op]; rewrite G; reflexivity|].
  split; [split; [etransitivity; [exact N'|exact A]|exact N]|exact I'|exact T'|]. intros x H. apply in_dvals_dset in H. destruct H as [->|H]; [exact U|exact (S x H)].
Qed.
Lemma fine_rows f : (forall id st row st', fine (fst st) -> f id st row = Ok st' -> fine (fst st')) ->
  forall rows id st st', fine (fst st) -> read_rows f id rows st = Ok st' -> fine (fst st').
Proof.
  intros F. induction rows as [|r rows IH]; intros id st st' A E; cbn [read_rows] in E; [apply ok_inj in E; subst st'; exact A|].
  destruct (f id st r) as [s1|] eqn:E1; [|discriminate]. cbn [bind] in E. exact (IH _ _ _ (F _ _ _ _ A E1) E).
Qed.
Lemma fine_table_row h id st row st' : fine (fst st) -> read_table_row h id st row = Ok st' -> fine (fst st').
Proof.
  destruct st as [dbs ms]. cbn [fst]. intros F E. unfold read_table_row in E. destruct (get_text h ($"Database") row) as [b|]; [|discriminate]. cbn [bind] in E.
  destruct (str_eqb_spec b []) as [_|Nb]; [apply ok_inj in E; subst st'; exact F|]. cbv zeta in E.
  destruct (text_method h ($"Primary Key") row) as [p|]; [|discriminate]. cbn [bind] in E. destruct (text_method h ($"Shard Key") row) as [k|]; [|discriminate]. cbn [bind] in E.
  destruct (get_cell h ($"# Shards") row) as [z|]; [|discriminate]. cbn [bind] in E. destruct (get_text h ($"Table") row) as [name|]; [|discriminate]. cbn [bind] in E.
  destruct (get_text h ($"Schema") row) as [schema|]; [|discriminate]. cbn [bind] in E. rename E into E0.
  match type of E0 with (bind ?x _) = _ => destruct x as [sk|] eqn:K; [|discriminate] end. cbn [bind] in E0. apply ok_inj in E0. subst st'. cbn [fst].
  apply fine_set; [exact F|]. apply fine_add.
  - destruct (dget b dbs) as [d|] eqn:D; [exact (F b d D)|apply fine_empty, Nb].
  - apply sound_new.
    + intros x X. destruct (str_eqb (strip p) []); [discriminate|]. injection X as <-. apply cell_keys_listed.
    + intros x ->. destruct (str_eqb (strip k) []); [discriminate|]. destruct z as [[|c s]|z]; try discriminate.
      destruct z as [|z|z]; [discriminate| |]; apply ok_inj in K; injection K as <-; (split; [apply cell_keys_some|split; [apply cell_keys_listed|discriminate]]).
Qed.
Lemma fine_on tab h column missing f st row st' : (forall s s', missing s = Ok s' -> s' = s) ->
  (forall t t', sound_table t -> f t = Ok t' -> sound_table t' /\ exists o, t' = run_table_op t o) ->
  fine (fst st) -> on_table tab h column missing f st row = Ok st' -> fine (fst st').
Proof.
  destruct st as [dbs ms]. cbn [fst]. intros M G F E. unfold on_table in E. destruct (get_text h ($"Database") row) as [b|]; [|discriminate]. cbn [bind] in E.
  destruct (dget b dbs) as [d|] eqn:D; [|apply ok_inj in E; subst st'; exact F]. destruct (get_text h column row) as [name|]; [|discriminate]. cbn [bind] in E.
  destruct (get_table d name) as [t|] eqn:T; [|apply M in E; subst st'; exact F]. destruct (f t) as [t'|] eqn:E1; [|discriminate]. cbn [bind] in E. apply ok_inj in E. subst st'. cbn [fst].
  pose proof (F b d D) as FD. destruct (G t t') as [U [o O]]; [|exact E1|].
  - apply (fd_sound _ _ FD). apply dvals_in. exists name. apply dget_in, T.
  - apply fine_set; [exact F|]. exact (fine_store _ _ _ _ _ o FD T O U).
Qed.
Lemma fine_column_row h id st row st' : fine (fst st) -> read_column_row h id st row = Ok st' -> fine (fst st').
Proof.
  unfold read_column_row. apply fine_on; [intros s s' X; apply ok_inj in X; symmetry; exact X|]. intros t t' S E.
  destruct (get_text h ($"Name") row) as [n|]; [|discriminate]. cbn [bind] in E. destruct (get_text h ($"Type") row) as [ty|]; [|discriminate]. cbn [bind] in E.
  destruct (mk_column (Some n) (Some ty)) as [c|] eqn:C; [|discriminate]. cbn [bind] in E. apply ok_inj in E. subst t'.
  split; [exact (sound_column _ _ _ _ S C)|]. exists (OnColumns (AddColumn c)). reflexivity.
Qed.
Lemma fine_fk_row h id st row st' : fine (fst st) -> read_fk_row h id st row = Ok st' -> fine (fst st').
Proof.
  unfold read_fk_row. apply fine_on; [intros s s' X; apply ok_inj in X; symmetry; exact X|]. intros t t' S E.
  destruct (get_text h ($"Name") row) as [n|]; [|discriminate]. cbn [bind] in E. destruct (text_method h ($"From Columns") row) as [f|]; [|discriminate]. cbn [bind] in E.
  destruct (text_method h ($"To Columns") row) as [k|]; [|discriminate]. cbn [bind] in E. destruct (get_text h ($"To Table") row) as [tb|]; [|discriminate]. cbn [bind] in E.
  split; [exact (sound_fk _ _ _ _ _ _ S E)|]. exists (OnConstraints (AddFkParts (Some (KeyList (cell_keys f))) (Some tb) (Some (KeyList (cell_keys k))) (Some n))).
  cbn [run_table_op run_con_op]. rewrite E. reflexivity.
Qed.
Lemma fine_rel_row h id st row st' : fine (fst st) -> read_rel_row h id st row = Ok st' -> fine (fst st').
Proof.
  unfold read_rel_row. apply fine_on; [discriminate|]. intros t t' S E.
  destruct (get_text h ($"To Table") row) as [tb|]; [|discriminate]. cbn [bind] in E. destruct (get_text h ($"Conditions") row) as [c|]; [|discriminate]. cbn [bind] in E.
  split; [exact (sound_rel _ _ _ _ S E)|]. exists (OnConstraints (AddRelParts (Some tb) None (Some c))). cbn [run_table_op run_con_op]. rewrite E. reflexivity.
Qed.
Lemma fine_read base dbs wb dbs' ms : fine dbs -> read_xls base dbs wb = Ok (dbs', ms) -> fine dbs'.
Proof.
  intros F E. unfold read_xls in E. destruct (verify_sheets wb required_sheets [] true) as [[m [|]]|]; cbn [bind] in E; [|apply ok_inj in E; injection E as <- _; exact F|discriminate].
  unfold read_databases in E. destruct (sheet_parts wb ($"Tables")) as [[h1 r1]|]; [|discriminate]. cbn [bind] in E. destruct (read_rows (read_table_row h1) base r1 (dbs, m)) as [s1|] eqn:E1; [|discriminate]. cbn [bind] in E.
  destruct (sheet_parts wb ($"Columns")) as [[h2 r2]|]; [|discriminate]. cbn [bind] in E. destruct (read_rows (read_column_row h2) base r2 s1) as [s2|] eqn:E2; [|discriminate]. cbn [bind] in E.
  destruct (sheet_parts wb ($"Foreign Keys")) as [[h3 r3]|]; [|discriminate]. cbn [bind] in E. destruct (read_rows (read_fk_row h3) base r3 s2) as [s3|] eqn:E3; [|discriminate]. cbn [bind] in E.
  destruct (sheet_parts wb ($"Relationships")) as [[h4 r4]|]; [|discriminate]. cbn [bind] in E.
  apply (fine_rows _ (fine_table_row h1)) in E1; [|exact F]. apply (fine_rows _ (fine_column_row h2)) in E2; [|exact E1]. apply (fine_rows _ (fine_fk_row h3)) in E3; [|exact E2].
  exact (fine_rows _ (fine_rel_row h4) _ _ _ _ E3 E).
Qed.
Lemma fine_failed base dbs wb dbs' e : fine dbs -> xls_left base dbs wb = (dbs', Some e) -> fine dbs'.
Proof.
  intros F E. destruct (left_cases _ _ _ _ _ E) as [[_ [_ ->]]|[_ [k [i [dbs1 [_ [A [_ S]]]]]]]]; [exact F|]. destruct (left_ok _ _ _ _ A) as [ms A']. pose proof (fine_read _ _ _ _ _ F A') as F1.
  destruct k as [|k]; [|rewrite S; exact F1]. destruct S as [h [rows [row [_ [_ ->]]]]]. destruct (table_row_cases h dbs1 row) as [[-> _]|[b [_ [Nb [D ->]]]]]; [exact F1|].
  assert (X : fine (dset b (empty_database b) dbs1)) by (apply fine_set; [exact F1|apply fine_empty, Nb]). intros x y. revert x y. 
  assert (Q : dset b (empty_database b) dbs1 = dbs1 ++ [(b, empty_database b)]). { clear -D. induction dbs1 as [|[k v] l IH]; [reflexivity|]. cbn [dget] in D. cbn [dset app]. destruct (str_eqb b k); [discriminate|]. f_equal. exact (IH D). }
  rewrite <- Q. exact X.
Qed.
Lemma held_fine dbs : held dbs -> fine dbs.
Proof. induction 1 as [|base dbs w dbs' ms _ IH E|base dbs w dbs' e _ IH E _]; [intros n d; discriminate|exact (fine_read _ _ _ _ _ IH E)|exact (fine_failed _ _ _ _ _ IH E)]. Qed.
