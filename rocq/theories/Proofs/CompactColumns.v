(** sampler.py 753-809: which columns are compacted (C43, C80). *)
From Coq Require Import Lia.
From Verif Require Import Model.Base Model.Value Model.Names Model.PlanModel Model.Metadata Model.Materialize Spec.SchemaSpec Spec.SampleSpec
  Proofs.BaseFacts Proofs.NameFacts.
Set Implicit Arguments.
Unset Strict Implicit.

Section Compact.
Variables (cfg : compact_config) (passthrough : list string) (ms : meta)
          (is_int : tname -> string -> bool) (has_autoinc : tname -> bool).
Hypothesis Hms : NoDup (dkeys ms).
Hypothesis Hcols : NoDup (dkeys (cp_columns cfg)).

Lemma compacted_dset acc n cs m c : NoDup (dkeys acc) ->
  compacted (dset acc n cs) m c <-> (m = n /\ In c cs) \/ (m <> n /\ compacted acc m c).
Proof.
  intros Hn. unfold compacted. split.
  - intros (l & Hl & Hc). apply (In_dget (dset_NoDup n cs Hn)) in Hl. destruct (eq_dec m n) as [->|Hne].
    + rewrite dget_dset_eq in Hl. inv Hl. left. auto.
    + rewrite (dget_dset_ne _ _ Hne) in Hl. right. split; [exact Hne|]. exists l. split; [exact (dget_In Hl)|exact Hc].
  - intros [[-> Hc]|(Hne & l & Hl & Hc)].
    + exists cs. split; [|exact Hc]. apply dget_In, dget_dset_eq.
    + exists l. split; [|exact Hc]. apply dget_In. rewrite (dget_dset_ne _ _ Hne). exact (In_dget Hn Hl).
Qed.

(** listed columns *)
Definition listed (l : dict string (list string)) (n : tname) (c : string) : Prop :=
  exists s cs, In (s, cs) l /\ named s n /\ In c cs.
Lemma listed_spec : forall l acc acc', NoDup (dkeys acc) -> NoDup (dkeys l) -> (forall s n, In s (dkeys l) -> named s n -> ~ In n (dkeys acc)) ->
  forM (fun acc (tc : string * list string) =>
    if is_nil (snd tc) then Ok acc
    else let* key := parse (fst tc) in
         if negb (dmem ms key) then Ok acc
         else if memb (fst tc) passthrough then Ok acc
         else Ok (dset acc key (set_of (snd tc)))) l acc = Ok acc' ->
  NoDup (dkeys acc') /\
  forall n c, compacted acc' n c <-> compacted acc n c \/ (listed l n c /\ In n (dkeys ms) /\ ~ In (render n) passthrough).
Proof.
  induction l as [|[s cs] l IH]; intros acc acc' Hn Hl Hfr H; cbn [forM] in H.
  - inv H. split; [exact Hn|]. intros n c. split; [auto|]. intros [H|((s & cs & [] & _) & _)]; exact H.
  - cbn [fst snd] in H. apply NoDup_cons_iff in Hl. destruct Hl as [Hs Hl].
    assert (Hskip : forall n c, (forall s', named s' n -> In c cs -> s' = s -> ~ (In n (dkeys ms) /\ ~ In (render n) passthrough)) ->
        (listed ((s, cs) :: l) n c /\ In n (dkeys ms) /\ ~ In (render n) passthrough) <-> (listed l n c /\ In n (dkeys ms) /\ ~ In (render n) passthrough)).
    { intros n c Hno. split; intros [(s' & cs' & Hin & Hnm & Hc) Hr]; (split; [|exact Hr]).
      - destruct Hin as [E|Hin]; [inv E; exfalso; exact (Hno s' Hnm Hc eq_refl Hr)|]. exists s', cs'. auto.
      - exists s', cs'. split; [right; exact Hin|auto]. }
    destruct cs as [|c0 cs]; cbn [is_nil] in H.
    { cbn [bind] in H. destruct (IH acc acc' Hn Hl) as [A B]; [intros s' n' Hs'; apply Hfr; right; exact Hs'|exact H|]. split; [exact A|]. intros n c. rewrite B.
      rewrite <- (Hskip n c); [reflexivity|]. intros s' _ []. }
    unfold parse in H. destruct (parse_table_name s) as [key|] eqn:Ep; [|discriminate]. apply parse_named in Ep. cbn [bind] in H.
    destruct (dmem ms key) eqn:Ed; cbn [negb] in H.
    2:{ cbn [bind] in H. destruct (IH acc acc' Hn Hl) as [A B]; [intros s' n' Hs'; apply Hfr; right; exact Hs'|exact H|]. split; [exact A|]. intros n c. rewrite B.
        rewrite <- (Hskip n c); [reflexivity|]. intros s' Hn' _ -> [Hx _]. rewrite (named_fun Hn' Ep) in Hx. apply dmem_true in Hx. congruence. }
    destruct (memb s passthrough) eqn:Em.
    { cbn [bind] in H. destruct (IH acc acc' Hn Hl) as [A B]; [intros s' n' Hs'; apply Hfr; right; exact Hs'|exact H|]. split; [exact A|]. intros n c. rewrite B.
      rewrite <- (Hskip n c); [reflexivity|]. intros s' Hn' _ -> [_ Hx]. apply Hx. rewrite <- (named_eq Hn'). apply memb_true. exact Em. }
    cbn [bind] in H.
    assert (Hkey : ~ In key (dkeys acc)) by (apply (Hfr s key); [left; reflexivity|exact Ep]).
    destruct (IH (dset acc key (set_of (c0 :: cs))) acc') as [A B]; [apply dset_NoDup; exact Hn|exact Hl| |exact H|].
    { intros s' n' Hs' Hn' Hx. apply (proj1 (dset_In_key _ _ _ _)) in Hx. destruct Hx as [->|Hx].
      - assert (s' = s) by (rewrite (named_eq Hn'), (named_eq Ep); reflexivity). subst s'. exact (Hs Hs').
      - exact (Hfr s' n' (or_intror Hs') Hn' Hx). }
    split; [exact A|]. intros n c. rewrite B, (@compacted_dset acc key _ n c Hn). split.
    + intros [[[-> Hc]|[Hne Hc]]|[(s' & cs' & Hin & Hr) Hr']].
      * right. split; [|split; [apply dmem_true; exact Ed|rewrite <- (named_eq Ep); apply memb_false; exact Em]].
        exists s, (c0 :: cs). split; [left; reflexivity|]. split; [exact Ep|]. exact (proj1 (set_of_In _ _) Hc).
      * left. exact Hc.
      * right. split; [|exact Hr']. exists s', cs'. split; [right; exact Hin|exact Hr].
    + intros [Hc|[(s' & cs' & Hin & Hnm & Hc) Hr]].
      * left. right. split; [|exact Hc]. intros ->. apply Hkey. destruct Hc as (l' & Hl' & _). apply in_map_iff. exists (key, l'). auto.
      * destruct Hin as [E|Hin]; [inv E; left; left; split; [exact (named_fun Hnm Ep)|apply set_of_In; exact Hc]|].
        right. split; [|exact Hr]. exists s', cs'. auto.
Qed.

(** single-column integer primary keys *)
Definition key_compacted (n : tname) (m : tmeta) (c : string) : Prop :=
  tb_pk (tm_table m) = [c] /\ ~ In (render n) passthrough /\ is_int n c = true /\ (cp_primary_keys cfg = true \/ has_autoinc n = true).
Lemma keys_spec acc : NoDup (dkeys acc) ->
  NoDup (dkeys (compact_keys cfg passthrough ms is_int has_autoinc acc)) /\
  forall n c, compacted (compact_keys cfg passthrough ms is_int has_autoinc acc) n c <->
    compacted acc n c \/ exists m, In (n, m) ms /\ key_compacted n m c.
Proof.
  unfold compact_keys. clear Hms Hcols. revert acc. induction ms as [|[n0 m0] l IH]; intros acc Hn; cbn [fold_left].
  - split; [exact Hn|]. intros n c. split; [auto|]. intros [H|(m & [] & _)]; exact H.
  - set (acc' := match tb_pk (tm_table m0) with
                 | [c] => if memb (render n0) passthrough then acc else if negb (is_int n0 c) then acc
                          else if cp_primary_keys cfg || has_autoinc n0 then dset acc n0 (set_add c (dget_or acc n0 [])) else acc
                 | _ => acc end).
    assert (Ha : NoDup (dkeys acc') /\ forall n c, compacted acc' n c <-> compacted acc n c \/ (n = n0 /\ key_compacted n0 m0 c)).
    { unfold acc', key_compacted.
      assert (Hno : forall P : Prop, ~ P -> NoDup (dkeys acc) /\ forall n (c : string), compacted acc n c <-> compacted acc n c \/ (n = n0 /\ P)) by (intros P HP; split; [exact Hn|]; intros; tauto).
      assert (Hno' : forall P : string -> Prop, (forall c, ~ P c) -> NoDup (dkeys acc) /\ forall n c, compacted acc n c <-> compacted acc n c \/ (n = n0 /\ P c)).
      { intros P HP. split; [exact Hn|]. intros n c. specialize (HP c). tauto. }
      destruct (tb_pk (tm_table m0)) as [|pc [|pc' rest]]; [apply Hno'; intros c [E _]; discriminate| |apply Hno'; intros c [E _]; discriminate].
      destruct (memb (render n0) passthrough) eqn:E1; [apply Hno'; intros c (_ & H & _); apply H; apply memb_true; exact E1|].
      destruct (is_int n0 pc) eqn:E2; cbn [negb]; [|apply Hno'; intros c (E & _ & H & _); inv E; congruence].
      destruct (cp_primary_keys cfg || has_autoinc n0) eqn:E3.
      - split; [apply dset_NoDup; exact Hn|]. intros n c. rewrite (@compacted_dset acc n0 _ n c Hn), set_add_In. split.
        + intros [[-> [->|Hc]]|[Hne Hc]]; [right| |left; exact Hc].
          * split; [reflexivity|]. split; [reflexivity|]. split; [apply memb_false; exact E1|]. split; [exact E2|]. apply orb_true_iff. exact E3.
          * left. unfold dget_or in Hc. destruct (dget acc n0) as [cs|] eqn:E; [|destruct Hc]. exists cs. split; [exact (dget_In E)|exact Hc].
        + intros [(cs & Hcs & Hc)|[-> (E & _)]].
          * destruct (eq_dec n n0) as [->|Hne]; [left|right; split; [exact Hne|exists cs; auto]]. split; [reflexivity|]. right. unfold dget_or. rewrite (In_dget Hn Hcs). exact Hc.
          * inv E. left. auto.
      - apply Hno'. intros c (_ & _ & _ & H). apply orb_true_iff in H. congruence. }
    destruct Ha as [Ha1 Ha2]. destruct (IH acc' Ha1) as [B1 B2]. split; [exact B1|]. intros n c. rewrite B2, Ha2. split.
    + intros [[H|[-> H]]|(m & Hm & H)]; [left; exact H| |]; right; [exists m0|exists m]; (split; [|exact H]); [left; reflexivity|right; exact Hm].
    + intros [H|(m & [E|Hm] & H)]; [auto| |right; exists m; auto]. inv E. left. right. auto.
Qed.

Theorem compact_columns_spec acc : get_compact_columns cfg passthrough ms is_int has_autoinc = Ok acc ->
  NoDup (dkeys acc) /\
  forall n c, compacted acc n c <->
    exists m, In (n, m) ms /\ ~ In (render n) passthrough /\
      ((exists s cs, In (s, cs) (cp_columns cfg) /\ named s n /\ In c cs) \/
       (tb_pk (tm_table m) = [c] /\ is_int n c = true /\
        (cp_primary_keys cfg = true \/ (cp_auto_increment cfg = true /\ has_autoinc n = true)))).
Proof.
  unfold get_compact_columns. intros H. apply bind_Ok in H. destruct H as (a0 & H0 & H).
  destruct (@listed_spec (cp_columns cfg) [] a0) as [A B]; [constructor|exact Hcols|intros s n _ _ []|exact H0|].
  assert (Hin : forall n c, (listed (cp_columns cfg) n c /\ In n (dkeys ms) /\ ~ In (render n) passthrough) <->
            exists m, In (n, m) ms /\ ~ In (render n) passthrough /\ (exists s cs, In (s, cs) (cp_columns cfg) /\ named s n /\ In c cs)).
  { intros n c. split.
    - intros (Hl & Hk & Hp). destruct (key_dget Hk) as (m & Hm). exists m. split; [exact (dget_In Hm)|]. split; [exact Hp|exact Hl].
    - intros (m & Hm & Hp & Hl). split; [exact Hl|]. split; [apply in_map_iff; exists (n, m); auto|exact Hp]. }
  assert (Hnil : forall n c, ~ compacted (@nil (tname * list string)) n c) by (intros n c (cs & [] & _)).
  destruct (negb (cp_primary_keys cfg) && negb (cp_auto_increment cfg)) eqn:Ef.
  - inv H. apply andb_true_iff in Ef. destruct Ef as [E1 E2]. apply negb_true_iff in E1, E2. split; [exact A|]. intros n c. rewrite B, Hin. split.
    + intros [Hx|(m & Hm & Hp & Hl)]; [exfalso; exact (Hnil n c Hx)|]. exists m. auto.
    + intros (m & Hm & Hp & [Hl|(_ & _ & [X|[X _]])]); [right; exists m; auto|congruence|congruence].
  - destruct (compact_in_fk ms (compact_keys cfg passthrough ms is_int has_autoinc a0)); [discriminate|]. inv H.
    destruct (keys_spec A) as [C1 C2]. split; [exact C1|]. intros n c. rewrite C2, B, Hin. split.
    + intros [[Hx|(m & Hm & Hp & Hl)]|(m & Hm & E1 & Hp & E2 & E3)]; [exfalso; exact (Hnil n c Hx)|exists m; auto|].
      exists m. split; [exact Hm|]. split; [exact Hp|]. right. split; [exact E1|]. split; [exact E2|].
      destruct E3 as [E3|E3]; [left; exact E3|]. destruct (cp_primary_keys cfg); [left; reflexivity|]. cbn in Ef. right. split; [|exact E3].
      destruct (cp_auto_increment cfg); [reflexivity|discriminate].
    + intros (m & Hm & Hp & [Hl|(E1 & E2 & E3)]); [left; right; exists m; auto|]. right. exists m. split; [exact Hm|]. split; [exact E1|]. split; [exact Hp|]. split; [exact E2|].
      destruct E3 as [E3|[_ E3]]; auto.
Qed.

(** C43, where it holds *)
Theorem compact_no_fk acc : cp_primary_keys cfg = true \/ cp_auto_increment cfg = true ->
  get_compact_columns cfg passthrough ms is_int has_autoinc = Ok acc ->
  forall n m fk c, In (n, m) ms -> In fk (tm_fks m) -> In c (fk_cols fk) -> ~ compacted acc n c.
Proof.
  intros Hflag H n m fk c Hm Hfk Hc (cs & Hcs & Hccs). pose proof (proj1 (compact_columns_spec H)) as Hn. unfold get_compact_columns in H. apply bind_Ok in H. destruct H as (a0 & H0 & H).
  destruct (negb (cp_primary_keys cfg) && negb (cp_auto_increment cfg)) eqn:Ef.
  - apply andb_true_iff in Ef. destruct Ef as [E1 E2]. apply negb_true_iff in E1, E2. destruct Hflag; congruence.
  - destruct (compact_in_fk ms (compact_keys cfg passthrough ms is_int has_autoinc a0)) eqn:E; [discriminate|]. inv H.
    assert (X : compact_in_fk ms (compact_keys cfg passthrough ms is_int has_autoinc a0) = true); [|congruence].
    unfold compact_in_fk. apply existsb_exists. exists (n, m). split; [exact Hm|]. cbn [fst snd]. apply existsb_exists. exists fk. split; [exact Hfk|].
    apply existsb_exists. exists c. split; [exact Hc|]. apply memb_true. unfold dget_or. rewrite (In_dget Hn Hcs). exact Hccs.
Qed.
End Compact.
