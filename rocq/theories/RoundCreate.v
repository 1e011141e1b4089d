(** * Lemmas: CREATE TABLE statements (for C45) *)
From Verif Require Export RoundRel.

Definition sepat (c : ascii) (P : str -> bool) : Prop := forall a b, P (a ++ c :: b) = P a && P b.
Record good (P : str -> bool) : Prop := {
  gd_quote : sepable P; gd_open : sepat "(" P; gd_close : sepat ")" P; gd_comma : sepat "," P }.
Lemma lacks_sepat c p : ~ In c p -> sepat c (lacks p).
Proof. intros H a b. unfold lacks. rewrite occ_sep by exact H. apply negb_orb. Qed.
Lemma noch_sepat c d : c <> d -> sepat d (noch c).
Proof. intros H a b. rewrite noch_app. unfold noch at 2. cbn [existsb]. destruct (Ascii.eqb_spec c d); [contradiction|reflexivity]. Qed.
Lemma and_sepat c P Q : sepat c P -> sepat c Q -> sepat c (fun s => P s && Q s).
Proof. intros HP HQ a b. rewrite HP, HQ. destruct (P a), (P b), (Q a), (Q b); reflexivity. Qed.
Lemma hasnt_sepat c p : lower_char c = c -> ~ In c p -> sepat c (hasnt p).
Proof. intros L H a b. unfold hasnt. rewrite lower_app. change (lower (c :: b)) with (lower_char c :: lower b). rewrite L. apply lacks_sepat, H. Qed.
Lemma ok_text_good : good ok_text.
Proof.
  split; [exact ok_text_sepable|..]; unfold ok_text; repeat apply and_sepat; try (apply noch_sepat; discriminate); apply lacks_sepat, not_in_b; reflexivity.
Qed.
Lemma noch_good c : c <> dquote -> c <> "("%char -> c <> ")"%char -> c <> ","%char -> good (noch c).
Proof. intros. split; [apply noch_sepable; assumption|..]; apply noch_sepat; assumption. Qed.
Definition bare (p : str) : bool := noch dquote p && noch "(" p && noch ")" p && noch "," p.
Lemma hasnt_good p : bare p = true -> good (hasnt p).
Proof.
  unfold bare. rewrite !andb_true_iff. intros [[[A B] C] D]. split; [apply hasnt_sepable, A|..]; apply hasnt_sepat; try reflexivity; apply noch_ok; assumption.
Qed.

(** ** The statement *)
Definition col_field (c : column) : str := quoted (column_name c) ++ $" " ++ column_type c.
Definition pk_field (pk : list str) : str := $"CONSTRAINT PRIMARY KEY (" ++ list_to_string pk true ++ $")".
Definition table_fields (t : table) : list str :=
  map col_field (table_iter t) ++ (if negb (Nat.eqb (length (t_pk t)) 0) then [pk_field (t_pk t)] else []).
Definition shard_tail (t : table) : str :=
  match t_shard t with
  | Some sk => $" ) PARTITION BY HASH(" ++ z_to_str (sk_shards sk) ++ $") KEY(" ++ list_to_string (sk_keys sk) true
  | None => []
  end.
Definition create_head (t : table) : str := $"CREATE TABLE " ++ quoted (t_schema t) ++ $"." ++ quoted (t_name t).
Definition create_end (t : table) : str := match t_shard t with Some _ => shard_tail t ++ $")" | None => $" )" end.
Definition create_text (t : table) : str :=
  create_head t ++ $" (" ++ (match table_fields t with [] => [] | fs => $" " ++ join ($" ,") fs end) ++ create_end t.

Section CreateP.
Variable t : table.
Hypothesis Ht : plain_table t.
Hypothesis Hwf : well_formed_table t.
Variable P : str -> bool.
Hypothesis G : good P.
Hypothesis Pw : forall w, plain w -> P w = true.
Hypothesis Pn : forall n, P (n_to_str n) = true.
Hypothesis Pz : forall z, P (z_to_str z) = true.
Hypothesis Pe : P [] = true.
Hypothesis Pb : P ($" ") = true.
Hypothesis Pt : forallb (fun ty => P ($" " ++ ty ++ $" ") && P ($" " ++ ty)) VALID_TYPES = true.
Hypothesis Pv : P ($" VARCHAR") = true.

Lemma P_type ty : readable_type ty -> P ($" " ++ ty ++ $" ") = true /\ P ($" " ++ ty) = true.
Proof.
  intros [H|[n ->]].
  - rewrite forallb_forall in Pt. specialize (Pt _ H). apply andb_true_iff in Pt. exact Pt.
  - split.
    + change (P ($" VARCHAR" ++ "("%char :: (n_to_str n ++ $")") ++ $" ") = true). rewrite (gd_open P G), Pv. rewrite <- app_assoc.
      change ($")" ++ $" ") with (")"%char :: $" "). rewrite (gd_close P G), Pn, Pb. reflexivity.
    + change (P ($" VARCHAR" ++ "("%char :: n_to_str n ++ $")") = true). rewrite (gd_open P G), Pv. change ($")") with (")"%char :: []). rewrite (gd_close P G), Pn, Pe. reflexivity.
Qed.
Lemma P_list a l b : P a = true -> P b = true -> (l = [] -> P (a ++ b) = true) -> (forall w, In w l -> plain w) -> P (a ++ list_to_string l true ++ b) = true.
Proof.
  intros A B E W. apply sep_list; [exact (gd_quote P G)|exact A|exact B| |intros w H; apply Pw, W, H|exact E].
  change (P ([] ++ ","%char :: $" ") = true). rewrite (gd_comma P G), Pe, Pb. reflexivity.
Qed.
Lemma P_col c : In c (table_iter t) -> forall a, P a = true -> P (a ++ col_field c) = true /\ (forall x Y, sepat x P -> P Y = true -> P (a ++ col_field c ++ $" " ++ x :: Y) = true).
Proof.
  intros H a A. assert (Hn : plain (column_name c)).
  { apply (pt_names _ Ht). apply in_or_app. right. apply in_or_app. left.
    unfold table_iter in H. apply dvals_in in H. destruct H as [k Hk]. destruct (wf_cols _ Hwf) as [Nd W]. pose proof (dget_nodup k c (t_cols t) Nd Hk) as D. rewrite (W k c D).
    apply (in_map fst) in Hk. exact Hk. }
  destruct (P_type _ (pt_coltypes _ Ht c H)) as [T1 T2]. unfold col_field. split.
  - apply sep_quoted; [exact (gd_quote P G)|exact A|apply Pw, Hn|exact T2].
  - intros x Y S PY. rewrite <- !app_assoc. apply sep_quoted; [exact (gd_quote P G)|exact A|apply Pw, Hn|].
    replace ($" " ++ column_type c ++ $" " ++ x :: Y) with (($" " ++ column_type c ++ $" ") ++ x :: Y) by (rewrite <- !app_assoc; reflexivity). rewrite S, T1, PY. reflexivity.
Qed.
Lemma P_cols cs : (forall c, In c cs -> In c (table_iter t)) -> cs <> [] -> forall a x Y, P a = true -> sepat x P -> P Y = true ->
  P (a ++ join ($" ,") (map col_field cs) ++ $" " ++ x :: Y) = true.
Proof.
  induction cs as [|c [|c' cs] IH]; intros H N a x Y A S PY; [contradiction| |].
  - cbn [map join]. apply P_col; [apply H; left; reflexivity|exact A|exact S|exact PY].
  - cbn [map]. rewrite join_cons by discriminate.
    replace (a ++ (col_field c ++ $" ," ++ join ($" ,") (col_field c' :: map col_field cs)) ++ $" " ++ x :: Y)
      with (a ++ col_field c ++ $" " ++ ","%char :: ([] ++ join ($" ,") (map col_field (c' :: cs)) ++ $" " ++ x :: Y)) by (rewrite <- !app_assoc; reflexivity).
    apply P_col; [apply H; left; reflexivity|exact A|exact (gd_comma P G)|]. apply IH; [intros y Hy; apply H; right; exact Hy|discriminate|exact Pe|exact S|exact PY].
Qed.
Hypothesis Pc : P ($"CONSTRAINT PRIMARY KEY ") = true.
Hypothesis Pp : t_shard t <> None -> P ($" PARTITION BY HASH") = true.
Hypothesis Pk : P ($" KEY") = true.
Hypothesis Pd : P ($".") = true.
Hypothesis Ph : P ($"CREATE TABLE ") = true.
Lemma P_pk a b : t_pk t <> [] -> P a = true -> P b = true -> P (a ++ ","%char :: pk_field (t_pk t) ++ b) = true.
Proof.
  intros N A B. unfold pk_field. rewrite (gd_comma P G), A. cbn [andb]. rewrite <- !app_assoc.
  change (P ($"CONSTRAINT PRIMARY KEY " ++ "("%char :: [] ++ list_to_string (t_pk t) true ++ $")" ++ b) = true). rewrite (gd_open P G), Pc. cbn [andb].
  apply P_list; [exact Pe| |intros X; contradiction|].
  - change (P ([] ++ ")"%char :: b) = true). rewrite (gd_close P G), Pe, B. reflexivity.
  - intros w H. apply (pt_names _ Ht). apply in_or_app. right. apply in_or_app. right. exact H.
Qed.
Lemma P_end : exists Y, create_end t = $" " ++ ")"%char :: Y /\ P Y = true.
Proof.
  unfold create_end, shard_tail. destruct (t_shard t) as [sk|] eqn:E; [|exists []; split; [reflexivity|exact Pe]].
  exists ($" PARTITION BY HASH(" ++ z_to_str (sk_shards sk) ++ $") KEY(" ++ list_to_string (sk_keys sk) true ++ $")").
  split; [rewrite <- !app_assoc; reflexivity|]. destruct (pt_keys _ Ht sk E) as [Nk Wk].
  change (P ($" PARTITION BY HASH" ++ "("%char :: z_to_str (sk_shards sk) ++ ")"%char :: $" KEY" ++ "("%char :: [] ++ list_to_string (sk_keys sk) true ++ $")") = true).
  rewrite (gd_open P G), (gd_close P G), (gd_open P G), (Pp ltac:(discriminate)), Pz, Pk. cbn [andb].
  apply P_list; [exact Pe| |intros X; contradiction|exact Wk]. change (P ([] ++ ")"%char :: []) = true). rewrite (gd_close P G), Pe. reflexivity.
Qed.
Lemma iter_nil : table_iter t = [] -> t_cols t = [].
Proof. unfold table_iter, dvals. apply map_eq_nil. Qed.
Lemma P_create : P (create_text t) = true.
Proof.
  destruct P_end as [Y [EY PY]]. unfold create_text, create_head. rewrite EY. rewrite <- !app_assoc.
  apply sep_quoted; [exact (gd_quote P G)|exact Ph|apply Pw, (pt_names _ Ht); cbn [app In]; tauto|].
  apply sep_quoted; [exact (gd_quote P G)|exact Pd|apply Pw, (pt_names _ Ht); cbn [app In]; tauto|].
  unfold table_fields. destruct (table_iter t) as [|c cs] eqn:Ec.
  - destruct (pt_columns _ Ht (iter_nil Ec)) as [Epk Esh]. rewrite Epk. cbn [map app length Nat.eqb negb].
    change (P ($" " ++ "("%char :: $" " ++ ")"%char :: Y) = true). rewrite (gd_open P G), (gd_close P G), Pb, PY. reflexivity.
  - assert (Cs : forall x, In x (c :: cs) -> In x (table_iter t)) by (rewrite Ec; auto).
    set (fs := map col_field (c :: cs) ++ (if negb (Nat.eqb (length (t_pk t)) 0) then [pk_field (t_pk t)] else [])).
    change (match fs with [] => [] | f :: l => $" " ++ join ($" ,") (f :: l) end) with ($" " ++ join ($" ,") fs). rewrite <- app_assoc.
    change (P ($" " ++ "("%char :: $" " ++ join ($" ,") fs ++ $" " ++ ")"%char :: Y) = true). rewrite (gd_open P G), Pb. cbn [andb]. unfold fs.
    destruct (t_pk t) as [|k ks] eqn:Epk; cbn [length Nat.eqb negb].
    + rewrite app_nil_r. apply P_cols; [exact Cs|discriminate|exact Pb|exact (gd_close P G)|exact PY].
    + replace (join ($" ,") (map col_field (c :: cs) ++ [pk_field (k :: ks)])) with (join ($" ,") (map col_field (c :: cs)) ++ $" " ++ ","%char :: pk_field (k :: ks)).
      * rewrite <- !app_assoc. change ((","%char :: pk_field (k :: ks)) ++ $" " ++ ")"%char :: Y) with (","%char :: (pk_field (k :: ks) ++ $" " ++ ")"%char :: Y)).
        apply P_cols; [exact Cs|discriminate|exact Pb|exact (gd_comma P G)|].
        pose proof (P_pk [] ($" " ++ ")"%char :: Y)) as Q. rewrite Epk in Q. specialize (Q ltac:(discriminate) Pe). rewrite (gd_close P G), Pb, PY in Q. specialize (Q eq_refl).
        rewrite (gd_comma P G) in Q. apply andb_true_iff in Q. apply Q.
      * clear. generalize (pk_field (k :: ks)). intros z. revert c. induction cs as [|c' cs IH]; intros c; [reflexivity|].
        cbn [map] in *. change (col_field c :: col_field c' :: map col_field cs) with (col_field c :: (col_field c' :: map col_field cs)).
        rewrite (join_cons _ (col_field c) (col_field c' :: _)) by discriminate. cbn [app]. rewrite (join_cons _ (col_field c) (col_field c' :: _)) by discriminate.
        specialize (IH c'). cbn [app] in IH. rewrite <- IH. rewrite <- !app_assoc. reflexivity.
Qed.
End CreateP.
