(** Statements of C24-C26, C70 from the facts. *)
From Verif Require Import Model.Base Model.Value Model.Names Model.Metadata Spec.GraphSpec Spec.SchemaSpec.
From Verif Require Import Proofs.BaseFacts Proofs.NameFacts Proofs.MetadataFacts.
Open Scope string_scope.
Open Scope list_scope.

Lemma from_engine_closed : forall (fnm : string -> string -> bool) db patterns fwd bwd,
  db_ok db ->
  exists ms extra first, from_engine fnm db patterns fwd bwd = Ok (ms, extra) /\
    NoDup (dkeys ms) /\
    (forall n, In n (dkeys ms) <-> selected fnm db patterns fwd bwd n) /\
    (forall n m, In (n, m) ms -> exists t, table_of db n t /\ m = mkMeta t (tb_fks t) []) /\
    dkeys ms = first ++ extra /\
    (forall n, In n first <-> matching fnm db patterns n) /\
    (forall n, In n extra <-> selected fnm db patterns fwd bwd n /\ ~ matching fnm db patterns n).
Proof.
  intros fnm db patterns fwd bwd Hdb.
  destruct (from_engine_spec fnm patterns fwd bwd Hdb) as (ms & extra & He & Hk & Hn & Hs & Hm).
  exists ms, extra, (matching_names fnm db patterns). split; [exact He|]. split; [exact Hn|]. split; [exact Hs|].
  split; [exact Hm|]. split; [exact Hk|]. split; [intros n; apply matching_names_In; exact Hdb|].
  intros n. rewrite <- Hs, <- (matching_names_In fnm patterns n Hdb), Hk, in_app_iff.
  rewrite Hk in Hn. apply NoDup_app_iff in Hn. destruct Hn as (_ & _ & Hd). split.
  - intros Hin. split; [right; exact Hin|]. intros Hin2. exact (Hd n Hin2 Hin).
  - intros [[Hin|Hin] Hni]; [contradiction|exact Hin].
Qed.

Lemma infer_exact : forall infer_all (ms : meta), meta_ok ms ->
  dkeys (infer_missing_foreign_keys infer_all ms) = dkeys ms /\
  forall n m, In (n, m) ms -> NoDup (tb_cols (tm_table m)) ->
    exists new, In (n, mkMeta (tm_table m) (tm_fks m ++ new) (tm_rev m)) (infer_missing_foreign_keys infer_all ms) /\
      NoDup new /\
      forall fk, In fk new <->
        ~ In fk (tm_fks m) /\
        exists c d, fk = mkFK [c] d [c] /\ In c (tb_cols (tm_table m)) /\ sole_pk infer_all ms (fst n) c d /\ d <> n.
Proof.
  intros ia ms Hms. split; [apply infer_keys|]. intros n m Hin Hnc.
  destruct (infer_table_spec ia Hms Hin Hnc) as (new & He & Hnd & Hn). exists new. split; [|split; [exact Hnd|]].
  - apply infer_In. exists m. split; [exact Hin|]. symmetry. exact He.
  - intros fk. rewrite Hn. unfold inferred. tauto.
Qed.

Lemma mkFK_inj a b c a' b' c' : mkFK a b c = mkFK a' b' c' -> a = a' /\ b = b' /\ c = c'.
Proof. intros He. inversion He. tauto. Qed.

Lemma reverse_keys_exact : forall (ms : meta), meta_ok ms ->
  (forall src m fk, In (src, m) ms -> In fk (tm_fks m) -> In (fk_dst fk) (dkeys ms)) ->
  exists ms', compute_reverse_keys ms = Ok ms' /\ dkeys ms' = dkeys ms /\
    forall n m, In (n, m) ms ->
      exists new, In (n, mkMeta (tm_table m) (tm_fks m) (tm_rev m ++ new)) ms' /\
        forall cols src src_cols,
          count_occ eq_dec new (mkFK cols src src_cols) =
          match dget ms src with
          | Some s => count_occ eq_dec (tm_fks s) (mkFK src_cols n cols)
          | None => 0
          end.
Proof.
  intros ms Hms Hd. exists (map (add_rev (all_fks ms)) ms). split; [|split].
  - apply reverse_keys_spec; [exact Hms|]. intros n fk Hin. apply all_fks_In in Hin; [|exact Hms].
    destruct Hin as (m & Hm & Hfk). eapply Hd; eassumption.
  - apply add_rev_keys.
  - intros n m Hin. exists (mirrors (all_fks ms) n). split.
    + apply in_map_iff. exists (n, m). split; [reflexivity|exact Hin].
    + intros cols src src_cols. unfold all_fks, mirrors.
      assert (Hone : forall t l, count_occ eq_dec (map (fun tf => mirror (fst tf) (snd tf)) (filter (fun tf => eqb (fk_dst (snd tf)) n) (map (fun fk => (t, fk)) l))) (mkFK cols src src_cols)
                = if eq_dec t src then count_occ eq_dec l (mkFK src_cols n cols) else 0).
      { intros t l. induction l as [|fk l IH]; [destruct (eq_dec t src); reflexivity|].
        cbn [map filter fst snd count_occ]. destruct (eqb (fk_dst fk) n) eqn:Ed.
        - apply (proj1 (eqb_true _ _)) in Ed. cbn [map count_occ fst snd].
          rewrite IH. destruct (eq_dec t src) as [->|Hts].
          + destruct (eq_dec (mirror src fk) (mkFK cols src src_cols)) as [He|Hne], (eq_dec fk (mkFK src_cols n cols)) as [He'|Hne']; try reflexivity.
            * exfalso. apply Hne'. apply mkFK_inj in He. destruct fk as [a b c]. cbn in *. destruct He as (-> & _ & ->). subst. reflexivity.
            * exfalso. apply Hne. subst fk. reflexivity.
          + destruct (eq_dec (mirror t fk) (mkFK cols src src_cols)) as [He|Hne]; [|reflexivity].
            exfalso. apply mkFK_inj in He. tauto.
        - apply (proj1 (eqb_false _ _)) in Ed. rewrite IH. destruct (eq_dec t src) as [_|_]; [|reflexivity].
          destruct (eq_dec fk (mkFK src_cols n cols)) as [He|_]; [|reflexivity]. subst fk. exfalso. apply Ed. reflexivity. }
      destruct Hms as [Hn Hnm]. clear Hin Hd. unfold dvals. induction ms as [|[k v] ms IH]; [reflexivity|].
      cbn [dkeys map fst] in Hn. apply NoDup_cons_iff in Hn. destruct Hn as [Ha Hn].
      cbn [map flat_map snd dget]. rewrite filter_app, map_app, count_occ_app, Hone.
      rewrite (Hnm k v (or_introl eq_refl)).
      rewrite IH; [|exact Hn|intros n' m' Hin; apply Hnm; right; exact Hin].
      destruct (eq_dec src k) as [->|Hne].
      * destruct (eq_dec k k) as [_|C]; [|congruence]. destruct (dget ms k) as [s|] eqn:Eg; [|lia].
        exfalso. apply Ha. apply dget_Some_key in Eg. exact Eg.
      * destruct (eq_dec k src) as [C|_]; [congruence|]. reflexivity.
Qed.

Lemma reverse_keys_raises : forall (ms : meta), meta_ok ms ->
  compute_reverse_keys ms = Err MeKeyError <->
  exists src m fk, In (src, m) ms /\ In fk (tm_fks m) /\ ~ In (fk_dst fk) (dkeys ms).
Proof.
  intros ms Hms. destruct (reverse_keys_spec Hms) as [Ho He].
  assert (Hdec : (forall n fk, In (n, fk) (all_fks ms) -> In (fk_dst fk) (dkeys ms)) \/
                 exists n fk, In (n, fk) (all_fks ms) /\ ~ In (fk_dst fk) (dkeys ms)).
  { generalize (all_fks ms). induction l as [|[n fk] l IH]; [left; intros n fk []|].
    destruct (In_dec' (fk_dst fk) (dkeys ms)) as [Hin|Hin].
    - destruct IH as [IH|(n' & fk' & Hin' & Hni)].
      + left. intros n' fk' [Heq|Hin']; [inversion Heq; subst; exact Hin|apply (IH n' fk' Hin')].
      + right. exists n', fk'. split; [right; exact Hin'|exact Hni].
    - right. exists n, fk. split; [left; reflexivity|exact Hin]. }
  split.
  - intros Herr. destruct Hdec as [Hall|(n & fk & Hin & Hni)]; [rewrite (Ho Hall) in Herr; discriminate|].
    apply all_fks_In in Hin; [|exact Hms]. destruct Hin as (m & Hm & Hfk). exists n, m, fk. tauto.
  - intros (src & m & fk & Hm & Hfk & Hni). apply He. intros Hall. apply Hni. apply (Hall src).
    apply all_fks_In; [exact Hms|]. exists m. tauto.
Qed.

Lemma parse_of_parts : forall s t : string, no_dot s -> parse_table_name (s ++ "." ++ t) = Some (s, t).
Proof. intros s t Hn. apply parse_named. split; [reflexivity|exact Hn]. Qed.
Lemma parse_only : forall (x s t : string), parse_table_name x = Some (s, t) -> x = (s ++ "." ++ t)%string /\ no_dot s.
Proof. intros x s t Hp. apply parse_named in Hp. exact Hp. Qed.
Lemma parse_fails : forall x : string, parse_table_name x = None <-> no_dot x.
Proof. intros x. unfold parse_table_name. apply split_dot_None. Qed.

Lemma db_meta_ok db : db_ok db -> meta_ok (map (fun t => (tb_name t, new_meta t)) db).
Proof.
  intros [Hn _]. split; [unfold dkeys; rewrite map_map; exact Hn|]. intros n m Hin. apply in_map_iff in Hin.
  destruct Hin as (t & He & _). inversion He; subst. reflexivity.
Qed.

(** Decision procedures used to check [db_ok] of concrete schemas. *)
Fixpoint nodupb {A} `{EqDec A} (l : list A) : bool :=
  match l with [] => true | x :: l' => negb (memb x l') && nodupb l' end.
Lemma nodupb_true {A} `{EqDec A} (l : list A) : nodupb l = true -> NoDup l.
Proof.
  induction l as [|x l IH]; cbn [nodupb]; intros Hb; [constructor|]. apply andb_true_iff in Hb. destruct Hb as [Hx Hl].
  constructor; [|apply IH; exact Hl]. apply memb_false. apply negb_true_iff in Hx. exact Hx.
Qed.
Definition fk_wfb (db : list table) (t : table) (fk : fkey) : bool :=
  negb (is_nil (fk_cols fk)) && Nat.eqb (length (fk_cols fk)) (length (fk_dst_cols fk)) && subsetb (fk_cols fk) (tb_cols t) &&
  existsb (fun d => eqb (tb_name d) (fk_dst fk) && subsetb (fk_dst_cols fk) (tb_cols d)) db.
Definition db_okb (db : list table) : bool :=
  nodupb (map tb_name db) &&
  forallb (fun t => negb (is_some (split_dot (fst (tb_name t)))) && nodupb (tb_cols t) && subsetb (tb_pk t) (tb_cols t) &&
                    forallb (fk_wfb db t) (tb_fks t)) db.
Lemma db_okb_true db : db_okb db = true -> db_ok db.
Proof.
  unfold db_okb. rewrite andb_true_iff, forallb_forall. intros [Hn Hall]. split; [apply nodupb_true; exact Hn|].
  intros t Ht. specialize (Hall t Ht). rewrite !andb_true_iff in Hall. destruct Hall as [[[H1 H2] H3] H4].
  split; [|split; [apply nodupb_true; exact H2|split; [apply subsetb_true; exact H3|]]].
  - apply split_dot_None. destruct (split_dot _); [discriminate|reflexivity].
  - intros fk Hfk. rewrite forallb_forall in H4. specialize (H4 fk Hfk). unfold fk_wfb in H4. rewrite !andb_true_iff in H4.
    destruct H4 as [[[G1 G2] G3] G4]. apply existsb_exists in G4. destruct G4 as (d & Hd & G4). apply andb_true_iff in G4.
    destruct G4 as [G4 G5]. apply (proj1 (eqb_true _ _)) in G4.
    split; [destruct (fk_cols fk); [discriminate|congruence]|]. split; [apply Nat.eqb_eq; exact G2|].
    split; [apply subsetb_true; exact G3|]. exists d. split; [split; assumption|apply subsetb_true; exact G5].
Qed.
