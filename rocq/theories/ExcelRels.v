(** * What a written workbook gives back: relationships, and the statement of C48 and C49 *)
From Verif Require Export ExcelRound.

(** ** Relationships filed under their usual names *)
Definition refile (l : list relationship) (x : table) : table := fold_left add_rel_obj (map renamed l) x.
Lemma refile_rest l : forall x, t_name (refile l x) = t_name x /\ t_schema (refile l x) = t_schema x /\ t_cols (refile l x) = t_cols x
  /\ t_pk (refile l x) = t_pk x /\ t_shard (refile l x) = t_shard x /\ t_fks (refile l x) = t_fks x.
Proof. unfold refile. induction l as [|r l IH]; intros x; [repeat split|]. cbn [map fold_left]. destruct (IH (add_rel_obj x (renamed r))) as [-> [-> [-> [-> [-> ->]]]]]. repeat split. Qed.
Lemma refile_get l : forall x n r, get_relationship (refile l x) n = Some r <->
  (exists pre r0 post, l = pre ++ r0 :: post /\ usual_name r0 = n /\ (forall r1, In r1 post -> usual_name r1 <> n) /\ r = renamed r0)
  \/ ((forall r1, In r1 l -> usual_name r1 <> n) /\ get_relationship x n = Some r).
Proof.
  induction l as [|a l IH]; intros x n r.
  - split; [intros G; right; split; [intros r1 []|exact G]|]. intros [[pre [r0 [post [E _]]]]|[_ G]]; [destruct pre; discriminate E|exact G].
  - change (refile (a :: l) x) with (refile l (add_rel_obj x (renamed a))). rewrite IH. clear IH.
    assert (G : get_relationship (add_rel_obj x (renamed a)) n = if str_eqb n (usual_name a) then Some (renamed a) else get_relationship x n) by (unfold get_relationship, add_rel_obj; cbn [with_rels t_rels renamed rel_name]; apply dget_dset).
    rewrite G. clear G. split.
    + intros [[pre [r0 [post [-> [E [H R]]]]]]|[H Q]]; [left; exists (a :: pre), r0, post; repeat split; assumption|].
      destruct (str_eqb_spec n (usual_name a)) as [->|Ne]; [left; exists [], a, l; injection Q as <-; repeat split; exact H|].
      right. split; [|exact Q]. intros r1 [<-|I]; [congruence|apply H, I].
    + intros [[pre [r0 [post [E [En [H R]]]]]]|[H Q]].
      * destruct pre as [|b pre]; cbn [app] in E; injection E as -> ->; [|left; exists pre, r0, post; repeat split; assumption].
        right. split; [exact H|]. subst n. rewrite str_eqb_refl. congruence.
      * right. split; [intros r1 I; apply H; right; exact I|]. destruct (str_eqb_spec n (usual_name a)) as [->|_]; [exfalso; apply (H a); [left; reflexivity|reflexivity]|exact Q].
Qed.
Lemma fold_rels l : forall x, NoDup (dkeys (t_rels x) ++ map rel_name l) ->
  fold_left add_rel_obj l x = with_rels x (t_rels x ++ map (fun c => (rel_name c, c)) l).
Proof.
  induction l as [|c cs IH]; intros x N; [cbn [fold_left map]; rewrite app_nil_r; destruct x; reflexivity|]. cbn [fold_left map] in *.
  assert (K : ~ In (rel_name c) (dkeys (t_rels x))) by (apply NoDup_remove_2 in N; intros I; apply N, in_or_app; left; exact I).
  unfold add_rel_obj at 2. rewrite dset_new by exact K. rewrite IH; cbn [with_rels t_rels].
  - rewrite <- app_assoc. reflexivity.
  - unfold dkeys in *. rewrite map_app, <- app_assoc. exact N.
Qed.
Lemma renamed_usual r : rel_name r = usual_name r -> renamed r = r.
Proof. intros H. unfold renamed. rewrite <- H. destruct r; reflexivity. Qed.

Lemma full_refile id t : full id t = refile (relationships_iter t) (full_fks id t).
Proof. reflexivity. Qed.
Lemma full_same id t : same_but_rels t (full id t).
Proof.
  rewrite full_refile. destruct (refile_rest (relationships_iter t) (full_fks id t)) as [A [B [C [D [E F]]]]]. constructor.
  - rewrite A. reflexivity. - rewrite B. reflexivity. - rewrite C. reflexivity. - rewrite D. reflexivity.
  - unfold shard_of. rewrite E. cbn [full_fks full_cols with_cols with_fks bare t_shard]. destruct (t_shard t); reflexivity.
  - rewrite F. reflexivity.
Qed.
Lemma full_refiled id t : refiled t (full id t).
Proof.
  intros n r. rewrite full_refile, refile_get. split.
  - intros [[pre [r0 [post [E [N [H R]]]]]]|[_ G]]; [|discriminate G]. exists pre, r0, post. split; [exact E|]. split; [exact N|]. split; [exact H|]. rewrite R. unfold renamed. rewrite N. reflexivity.
  - intros [pre [r0 [post [E [N [H R]]]]]]. left. exists pre, r0, post. split; [exact E|]. split; [exact N|]. split; [exact H|]. rewrite R. unfold renamed. rewrite N. reflexivity.
Qed.
Lemma full_usual id t : well_formed_table t -> (forall r, In r (relationships_iter t) -> rel_name r = usual_name r) -> t_rels (full id t) = t_rels t.
Proof.
  intros Wt H. unfold full. replace (map renamed (relationships_iter t)) with (relationships_iter t).
  - destruct (wf_rels _ Wt) as [N K]. destruct (by_name rel_name (t_rels t) N K) as [A B]. rewrite fold_rels; cbn [full_fks full_cols with_cols with_fks bare with_rels t_rels app dkeys map]; unfold relationships_iter; [exact A|rewrite B; exact N].
  - symmetry. rewrite <- (map_id (relationships_iter t)) at 2. apply map_ext_in. intros r I. apply renamed_usual, H, I.
Qed.

(** ** The whole round trip *)
Lemma number_forall2 (R : table -> table -> Prop) ts : (forall id t, In t ts -> R t (full id t)) -> forall id, Forall2 R ts (map (fun p => full (fst p) (snd p)) (number id ts)).
Proof.
  induction ts as [|t ts IH]; intros H id; [constructor|]. cbn [number map fst snd]. constructor; [apply H; left; reflexivity|]. apply IH. intros i u I. apply H. right. exact I.
Qed.
Lemma round_trip fresh calc base d filename : well_formed d -> excel_db d ->
  exists w d', write_database fresh new_writer d filename = Ok (w, xls_filename filename) /\ read_xls base [] (saved calc w) = Ok ([(db_name d, d')], [])
    /\ db_name d' = db_name d /\ get_table_names d' = get_table_names d
    /\ (NoDup (get_schema_names d') /\ forall s, In s (get_schema_names d') <-> exists t, In t (db_iter d) /\ t_schema t = s)
    /\ db_iter d' = map (fun p => full (fst p) (snd p)) (number base (db_iter d)).
Proof.
  intros W X. destruct (read_back calc d W X base) as [d' [R [N [T S]]]]. exists (sheets_of d cut), d'. rewrite (saved_sheets calc d). split; [apply written; assumption|]. split; [exact R|]. split; [exact N|].
  split; [|split; [exact S|]].
  - unfold get_table_names, dkeys. rewrite T, map_map. cbn [fst]. destruct (d_names d W) as [E _]. fold (dkeys (db_tables d)). rewrite <- E. rewrite <- (number_snd (db_iter d) base) at 2. rewrite map_map. reflexivity.
  - unfold db_iter at 1, dvals. rewrite T, map_map. reflexivity.
Qed.
