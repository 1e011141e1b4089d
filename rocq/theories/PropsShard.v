(** * Properties C55 (limits of the sharding review) and C58: the sharding review *)
From Coq Require Import Lqa Qabs.
From Verif Require Import ShardFacts ConfigFacts.
Open Scope Z_scope.

(** C58: the review asks for the statistics once.  Given limits that are integers of at most 26 bits
    (the defaults are) and at most [2 ^ 27] shards a table, it fails exactly if some table of the
    database has zero shards; otherwise it says, table by table and for tables of the database only,
    what [judged] says. *)
Theorem C58_exact : forall ask rnd commas float_str d c h rows stats max min skew_limit, rounding rnd ->
  ask h ($"show statistics for server;") = Ok rows -> Forall2 (tells (db_name d)) rows stats ->
  limit c ($"max_rows_per_shard") MAX_ROWS_PER_SHARD = SNum (inject_Z max) -> Z.abs max < 2 ^ 26 ->
  limit c ($"min_rows_per_shard") MIN_ROWS_PER_SHARD = SNum (inject_Z min) -> Z.abs min < 2 ^ 26 ->
  limit c ($"min_skew_ratio") MIN_SKEW_RATIO = SNum skew_limit -> (0 <= skew_limit)%Q ->
  (forall s, In s stats -> st_db s = db_name d -> 0 <= st_shards s <= 2 ^ 27) ->
  let run := review_sharding ask rnd commas float_str d c h in
  snd run = h ++ [$"show statistics for server;"]
  /\ ((exists s, In s stats /\ st_db s = db_name d /\ st_shards s = 0) -> fst run = Err ZeroDivisionError)
  /\ ((forall s, In s stats -> st_db s = db_name d -> st_shards s <> 0) ->
      exists ls, fst run = Ok (concat ls)
        /\ Forall2 (judged rnd commas float_str max min skew_limit) (filter (fun s => str_eqb (st_db s) (db_name d)) stats) ls).
Proof.
  intros ask rnd commas float_str d c h rows stats max min q R A T L1 B1 L2 B2 L3 B3 B. unfold review_sharding, abind, query. rewrite A. cbn [ret fst snd]. rewrite L1, L2, L3. split; [reflexivity|].
  apply (judge_rows rnd R commas float_str); assumption.
Qed.
Print Assumptions C58_exact.
(** Without a configuration the limits are these. *)
Theorem C58_defaults : limit [] ($"max_rows_per_shard") MAX_ROWS_PER_SHARD = SNum (inject_Z 50000000)
  /\ limit [] ($"min_rows_per_shard") MIN_ROWS_PER_SHARD = SNum (inject_Z 20000000) /\ limit [] ($"min_skew_ratio") MIN_SKEW_RATIO = SNum MIN_SKEW_RATIO
  /\ (Qabs (MIN_SKEW_RATIO - (1 # 100)) < 1 # Z.to_pos (2 ^ 59))%Q.
Proof. repeat split; try reflexivity. Qed.
Print Assumptions C58_defaults.
(** With limits in order no table has too few and too many rows per shard. *)
Theorem C58_never_both : forall max min s, min <= max -> 0 < st_shards s -> ~ (st_rows s < min * st_shards s /\ max * st_shards s < st_rows s).
Proof. intros max min s H P [A B]. nia. Qed.
Print Assumptions C58_never_both.
(** The skew reported is, up to the spacing of floating point numbers, the skew divided by the rounded
    number of rows of an average shard. *)
Theorem C58_skew : forall rnd s, rounding rnd -> Z.abs (st_skew s) <= 2 ^ 53 ->
  let average := rnd (inject_Z (st_rows s) / inject_Z (st_shards s))%Q in
  ((MIN_SKEW_RATIO < skew_of rnd s)%Q -> (MIN_SKEW_RATIO < inject_Z (st_skew s) / average)%Q)
  /\ ((MIN_SKEW_RATIO + (1 # Z.to_pos (2 ^ 59)) <= inject_Z (st_skew s) / average)%Q -> (MIN_SKEW_RATIO < skew_of rnd s)%Q).
Proof.
  intros rnd s R B average. unfold skew_of. fold average.
  assert (E : (rnd (inject_Z (st_skew s)) / average == inject_Z (st_skew s) / average)%Q) by (rewrite (rnd_int rnd R) by exact B; reflexivity).
  assert (X1 : (rnd MIN_SKEW_RATIO == MIN_SKEW_RATIO)%Q) by exact (rd_exact _ R 5764607523034235 59 ltac:(lia) ltac:(lia)).
  assert (X2 : (rnd (5764607523034236 # Z.to_pos (2 ^ 59)) == MIN_SKEW_RATIO + (1 # Z.to_pos (2 ^ 59)))%Q) by (rewrite (rd_exact _ R 5764607523034236 59) by lia; reflexivity).
  split; intros H.
  - apply Qnot_le_lt. intros L. rewrite <- E in L. apply (rd_order _ R) in L. rewrite X1 in L. lra.
  - assert (L : (5764607523034236 # Z.to_pos (2 ^ 59) <= rnd (inject_Z (st_skew s)) / average)%Q) by (rewrite E; eapply Qle_trans; [|exact H]; apply Qle_lteq; right; reflexivity). apply (rd_order _ R) in L. rewrite X2 in L. assert (0 < 1 # Z.to_pos (2 ^ 59))%Q by reflexivity. lra.
Qed.
Print Assumptions C58_skew.
(** rounding to nothing is rounding, and rows like these exist *)
Definition stat_row (db schema table rows shards skew : str) : row := fun c =>
  if str_eqb c ($"Database Name") then Ok db else if str_eqb c ($"Schema Name") then Ok schema else if str_eqb c ($"Table Name") then Ok table
  else if str_eqb c ($"Total Row Count") then Ok rows else if str_eqb c ($"Total Shards") then Ok shards else if str_eqb c ($"Row Count Skew") then Ok skew else Err KeyError.
Example C58_case : rounding (fun x => x)
  /\ (let rows := [stat_row ($"d") ($"s") ($"big") ($"50000001") ($"1") ($"0"); stat_row ($"other") ($"s") ($"t") ($"x") ($"0") ($"0");
                   stat_row ($"d") ($"s") ($"thin") ($"39999999") ($"2") ($"1000000"); stat_row ($"d") ($"s") ($"fine") ($"40000000") ($"2") ($"0")] in
      let stats := [{| st_db := $"d"; st_schema := $"s"; st_table := $"big"; st_rows := 50000001; st_shards := 1; st_skew := 0 |};
                    {| st_db := $"other"; st_schema := $"s"; st_table := $"t"; st_rows := 0; st_shards := 0; st_skew := 0 |};
                    {| st_db := $"d"; st_schema := $"s"; st_table := $"thin"; st_rows := 39999999; st_shards := 2; st_skew := 1000000 |};
                    {| st_db := $"d"; st_schema := $"s"; st_table := $"fine"; st_rows := 40000000; st_shards := 2; st_skew := 0 |}] in
      Forall2 (tells ($"d")) rows stats
      /\ fst (review_sharding (fun _ _ => Ok rows) (fun x => x) (fun _ => $"N") (fun _ => $"X") (empty_database ($"d")) [] [])
         = Ok [$"d.s.big is not sharded and has more than N rows total"; $"d.s.thin is sharded and has less than N rows per shard"; $"d.s.thin has a high skew of X"]).
Proof.
  split; [split; [intros x y H; exact H|intros; reflexivity]|]. cbn zeta. split.
  - assert (N : forall (r : row) c t z, r c = Ok t -> py_int t = Ok z -> number_in r c z) by (intros r c t z A B; exists t; split; assumption).
    apply Forall2_cons; [|apply Forall2_cons; [|apply Forall2_cons; [|apply Forall2_cons; [|apply Forall2_nil]]]]; (split; [reflexivity|intros H|intros H]); try (exfalso; discriminate H);
      first [split; reflexivity|repeat split; (eapply N; [reflexivity|vm_compute; reflexivity])].
  - vm_compute. reflexivity.
Qed.

(** C55 does not hold for the sharding review either: limits from a configuration file are texts and
    make it fail on the first table they would be used for.  (With limits that are numbers see C58.) *)
Theorem C55_shard_refuted : forall ask rnd commas float_str d conf h rows stats, rounding rnd ->
  ask h ($"show statistics for server;") = Ok rows -> Forall2 (tells (db_name d)) rows stats ->
  (forall s, In s stats -> st_db s = db_name d -> 0 < st_shards s <= 2 ^ 27) ->
  (exists s, In s stats /\ st_db s = db_name d
     /\ ((st_shards s = 1 /\ cfg_getitem conf ($"max_rows_per_shard") <> None)
         \/ (st_shards s <> 1 /\ (cfg_getitem conf ($"min_rows_per_shard") <> None \/ cfg_getitem conf ($"min_skew_ratio") <> None)))) ->
  fst (review_sharding ask rnd commas float_str d (file_settings conf) h) = Err TypeError.
Proof.
  intros ask rnd commas float_str d conf h rows stats R A T B [s [I [E H]]]. unfold review_sharding, abind, query. rewrite A. cbn [ret fst].
  assert (K : forall k q, cfg_getitem conf k <> None -> exists t, limit (file_settings conf) k q = SText t).
  { intros k q N. unfold cfg_getitem, cfg_get in N. unfold limit, file_settings. assert (G : dget k (map (fun kv => (fst kv, SText (snd kv))) conf) = match dget k conf with Some v => Some (SText v) | None => None end).
    { clear. induction conf as [|[x v] l IH]; [reflexivity|]. cbn [map fst snd dget]. destruct (str_eqb k x); [reflexivity|exact IH]. }
    rewrite G. destruct (dget k conf) as [v|]; [exists v; reflexivity|contradiction]. }
  apply (text_rows rnd R commas float_str _ _ _ _ _ stats T B). exists s. split; [exact I|]. split; [exact E|].
  destruct H as [[H1 H2]|[H1 [H2|H2]]].
  - left. split; [exact H1|apply K, H2].
  - right. split; [exact H1|]. destruct (K _ MIN_ROWS_PER_SHARD H2) as [t Ht]. exists t. left. exact Ht.
  - right. split; [exact H1|]. destruct (K _ MIN_SKEW_RATIO H2) as [t Ht]. exists t. right. exact Ht.
Qed.
Print Assumptions C55_shard_refuted.
Example C55_shard_case : fst (review_sharding (fun _ _ => Ok [stat_row ($"d") ($"s") ($"t") ($"10") ($"1") ($"0")]) (fun x => x) (fun _ => []) (fun _ => [])
    (empty_database ($"d")) (file_settings [($"max_rows_per_shard", $"5")]) []) = Err TypeError.
Proof. vm_compute. reflexivity. Qed.
