(** planner.py: the property theorems, from Proofs/PlannerFinal.v. *)
From Verif Require Import Model.Base Model.Solver Model.Value Model.Names Model.PlanModel Model.Metadata Model.Planner.
From Verif Require Import Spec.GraphSpec Spec.SchemaSpec Spec.SqlSem Spec.PlannerSpec.
From Verif Require Import Proofs.BaseFacts Proofs.GraphFacts Proofs.NameFacts Proofs.MetadataFacts Proofs.PlannerEdit Proofs.PlannerGraph Proofs.PlannerTables Proofs.PlannerMain Proofs.PlannerSem Proofs.PlannerFinal Proofs.SimplifyFacts Proofs.BuildFacts.
Set Implicit Arguments.
Unset Strict Implicit.
Open Scope string_scope.
Open Scope list_scope.

Section Wrap.
Variables (fnm : string -> string -> bool) (cfg : config) (db : list table).
Variable ord : list string -> list string.
Variable ordp : list tname -> list tname.
Hypothesis Hdb : db_ok db.
Hypothesis Hord : any_order ord.
Hypothesis Hordp : any_order ordp.

Notation chosen := (chosen fnm cfg db).
Notation considered := (considered fnm cfg db).
Notation active := (active fnm cfg db).
Notation connected := (connected fnm cfg db).
Notation passed_through := (passed_through fnm cfg db).
Notation good_order := (good_order fnm cfg db).

Ltac outcome := destruct (@plan_outcome fnm cfg db ord ordp Hdb Hord Hordp) as
    [[Hnv Eo]|(Hnv & [(Hinc & Hii & Eo)|(Hii & [[Hop Eo]|(Hop & [[Hbt Eo]|(Hbt & [[Hcy Eo]|(Hcy & [[Hcl Eo]|(Hcl & Htact & ns & Hns & Hgood & [(n & r & Hn & Htb & Eo & Hr)|(Hntb & p1 & passl & Eo & Hshape)])])])])])])].

(** C23 *)
Lemma plan_keyerror : names_valid cfg -> c_include_deps cfg = false -> ~ out_of_passthrough fnm cfg db -> ~ bad_target fnm cfg db ->
  ~ cyclic fnm cfg db -> (exists n fk, considered n fk /\ ~ chosen (fk_dst fk)) -> plan_db ord ordp fnm cfg db = Err PKeyError.
Proof.
  intros H1 H2 H3 H4 H5 (n0 & fk0 & H6 & H7). outcome; try tauto; try congruence; exfalso; apply H7; exact (Hcl n0 fk0 H6).
Qed.
Lemma plan_without_deps : names_valid cfg -> c_include_deps cfg = false -> ~ out_of_passthrough fnm cfg db -> ~ bad_target fnm cfg db ->
  c_constraints cfg = [] -> (forall n fk, considered n fk -> chosen (fk_dst fk)) ->
  (cyclic fnm cfg db /\ plan_db ord ordp fnm cfg db = Err (PValueError RCycle)) \/
  (~ cyclic fnm cfg db /\ exists p, plan_db ord ordp fnm cfg db = Ok p).
Proof.
  intros H1 H2 H3 H4 H5 H6. outcome; try tauto; try congruence.
  - exfalso. unfold table_bad, confs_of, dget_or in Htb. rewrite H5 in Htb. cbn in Htb. destruct Htb as [[C _]|(c & [] & _)]. congruence.
  - right. split; [exact Hcy|]. exists p1. exact Eo.
Qed.

(** C21 *)
Lemma plan_rejects : c_include_deps cfg = true ->
  (plan_db ord ordp fnm cfg db = Err (PValueError RName) <-> ~ names_valid cfg) /\
  (plan_db ord ordp fnm cfg db = Err (PValueError RIgnored) <-> names_valid cfg /\ into_ignored fnm cfg db) /\
  (plan_db ord ordp fnm cfg db = Err (PValueError RPassthrough) <-> names_valid cfg /\ ~ into_ignored fnm cfg db /\ out_of_passthrough fnm cfg db) /\
  (plan_db ord ordp fnm cfg db = Err (PValueError RTarget) <->
     names_valid cfg /\ ~ into_ignored fnm cfg db /\ ~ out_of_passthrough fnm cfg db /\ bad_target fnm cfg db) /\
  (plan_db ord ordp fnm cfg db = Err (PValueError RCycle) <->
     names_valid cfg /\ ~ into_ignored fnm cfg db /\ ~ out_of_passthrough fnm cfg db /\ ~ bad_target fnm cfg db /\ cyclic fnm cfg db).
Proof.
  intros Hinc0.
  assert (Hcr : forall r, constraint_reason r -> r <> RName /\ r <> RIgnored /\ r <> RPassthrough /\ r <> RTarget /\ r <> RCycle).
  { intros r [->|[->| ->]]; repeat split; discriminate. }
  outcome; rewrite Eo; try (destruct (Hcr _ Hr) as (R1 & R2 & R3 & R4 & R5));
    (split; [|split; [|split; [|split]]]; split; intros HX; try tauto; try discriminate; try congruence).
Qed.

Lemma plan_ok_checked p : plan_db ord ordp fnm cfg db = Ok p -> names_valid cfg /\ (c_include_deps cfg = true -> ~ into_ignored fnm cfg db) /\
  ~ out_of_passthrough fnm cfg db /\ ~ bad_target fnm cfg db /\ ~ cyclic fnm cfg db.
Proof. intros Hp. destruct (plan_ok_shape Hdb Hord Hordp Hp) as (pl & ns & H0). tauto. Qed.

(** C12 *)
Lemma plan_covers p : plan_db ord ordp fnm cfg db = Ok p ->
  NoDup (dkeys (p_queries p)) /\
  (forall s, In s (dkeys (p_queries p)) <-> exists n, named s n /\ (passed_through n \/ connected n)) /\
  (forall s q n, In (s, q) (p_queries p) -> named s n -> exists st, q = mkQuery None None (Some st) /\ reads_only n st) /\
  NoDup (p_passthrough p) /\ (forall s, In s (p_passthrough p) <-> exists n, named s n /\ passed_through n).
Proof.
  intros Hp. destruct (plan_ok_shape Hdb Hord Hordp Hp) as (pl & ns & _ & Hs & Hg & _).
  split; [apply (keys_NoDup Hdb Hs Hg)|]. split; [apply (keys_In Hdb Hs Hg)|]. split; [intros s q n; apply (query_reads Hdb Hs Hg)|].
  destruct Hs as (Hn & Hpl & Hpt & _). rewrite Hpt.
  assert (Hdot : forall n, In n pl -> no_dot (fst n)) by (intros n Hin; eapply chosen_no_dot; [exact Hdb|apply Hpl in Hin; apply Hin]).
  split.
  - apply NoDup_map_inj; [|exact Hn]. intros a b Ha Hb He. apply render_inj in He; [exact He|apply Hdot; exact Ha|apply Hdot; exact Hb].
  - intros s. rewrite in_map_iff. split.
    + intros (n & <- & Hin). exists n. split; [apply named_render, Hdot; exact Hin|apply Hpl; exact Hin].
    + intros (n & Hsn & Hin). exists n. split; [symmetry; exact (named_eq Hsn)|apply Hpl; exact Hin].
Qed.


Lemma map_render_inj l : forall l', (forall n, In n l -> no_dot (fst n)) -> (forall n, In n l' -> no_dot (fst n)) -> map render l = map render l' -> l = l'.
Proof.
  induction l as [|a l IH]; intros [|b l'] H1 H2 He; try discriminate; [reflexivity|]. cbn [map] in He. injection He as He1 He2.
  f_equal; [apply render_inj; [apply H1; left; reflexivity|apply H2; left; reflexivity|exact He1]|].
  apply IH; [intros n Hn; apply H1; right; exact Hn|intros n Hn; apply H2; right; exact Hn|exact He2].
Qed.

Lemma plan_constraints p0 : config_ok cfg -> plan_db ord ordp fnm (without_constraints cfg) db = Ok p0 ->
  (constraints_misplaced fnm cfg db p0 /\ exists r, plan_db ord ordp fnm cfg db = Err (PValueError r) /\ (r = RConstraintRev \/ r = RConstraintCol \/ r = RConstraintVal)) \/
  (~ constraints_misplaced fnm cfg db p0 /\ exists p, plan_db ord ordp fnm cfg db = Ok p /\ dkeys (p_queries p) = dkeys (p_queries p0) /\ p_passthrough p = p_passthrough p0).
Proof.
  intros Hcfg Hp0. destruct (plan_ok_shape Hdb Hord Hordp Hp0) as (pl0 & ns0 & Ho0 & Hs0 & Hg0 & _ & H1 & H2 & H3 & H4 & H5 & H6 & _).
  change (order_of fnm (without_constraints cfg) db ord) with (order_of fnm cfg db ord) in Ho0.
  change (good_order ns0) in Hg0. change (names_valid cfg) in H1. change (c_include_deps cfg = true -> ~ into_ignored fnm cfg db) in H2.
  change (~ out_of_passthrough fnm cfg db) in H3. change (~ bad_target fnm cfg db) in H4. change (~ cyclic fnm cfg db) in H5. change (dst_closed fnm cfg db) in H6.
  assert (Hdot : forall n, connected n -> no_dot (fst n)).
  { intros n Hc. eapply chosen_no_dot; [exact Hdb|]. apply (@connected_active fnm cfg db) in Hc. apply Hc. }
  assert (Hchi : forall n c fk, earlier_child fnm cfg db p0 n c fk <-> pos_child fnm cfg db ns0 n c fk).
  { intros n c fk. change (earlier_child fnm (without_constraints cfg) db p0 n c fk <-> pos_child fnm (without_constraints cfg) db ns0 n c fk). eapply child_iff; eassumption. }
  assert (Hus : forall n c, (exists t v, table_of db n t /\ In (cc_col c) (tb_cols t) /\ cc_val c = inl v) <-> usable db n c).
  { intros n c. split; [intros (t & v & A & B & C); exists t; split; [exact A|split; [exact B|exists v; exact C]]|intros (t & A & B & v & C); exists t, v; tauto]. }
  assert (Hmis : constraints_misplaced fnm cfg db p0 <-> exists n, In n ns0 /\ table_bad fnm cfg db ns0 n).
  { split.
    - intros (n & l & Hc & Hl & Hbad). exists n. split; [apply (ns_iff Hg0); exact Hc|].
      apply constraints_iff in Hl; [|apply Hcfg|apply Hdot; exact Hc]. subst l. destruct Hbad as [(A & (c & fk & B) & C)|(c & A & B)].
      + left. split; [exact A|]. split; [exists c, fk; apply Hchi; exact B|]. intros g Hgt. apply C. apply is_target_iff; [apply Hcfg|apply Hdot; exact Hc|exact Hgt].
      + right. exists c. split; [exact A|]. rewrite <- Hus. exact B.
    - intros (n & Hin & Hbad). apply (ns_iff Hg0) in Hin. exists n, (confs_of cfg n). split; [exact Hin|].
      split; [apply constraints_iff; [apply Hcfg|apply Hdot; exact Hin|reflexivity]|]. destruct Hbad as [(A & (c & fk & B) & C)|(c & A & B)].
      + left. split; [exact A|]. split; [exists c, fk; apply Hchi; exact B|]. intros g Hgt. apply C. apply is_target_iff; [apply Hcfg|apply Hdot; exact Hin|exact Hgt].
      + right. exists c. split; [exact A|]. rewrite Hus. exact B. }
  outcome; try tauto.
  all: assert (ns = ns0) by
    (apply map_render_inj; [intros m Hm; apply Hdot; apply (ns_iff Hgood); exact Hm|intros m Hm; apply Hdot; apply (ns_iff Hg0); exact Hm|congruence]); subst ns0.
  - left. split; [apply Hmis; exists n; tauto|]. exists r. split; [exact Eo|exact Hr].
  - right. split; [rewrite Hmis; intros (n & A & B); exact (Hntb n A B)|]. exists p1. split; [exact Eo|].
    assert (Hpe : p_passthrough p1 = p_passthrough p0).
    { clear - Hp0 Eo. revert Hp0 Eo. unfold plan_db, plan_internal. cbn [without_constraints c_ignore c_passthrough c_select c_include_deps].
      destruct (mapM parse (c_ignore cfg)); cbn [bind]; [|discriminate]. destruct (mapM parse (c_passthrough cfg)); cbn [bind]; [|discriminate].
      destruct (of_meta _); cbn [bind]; [|discriminate]. change (edit_fks (without_constraints cfg)) with (edit_fks cfg).
      destruct (edit_fks cfg _) as [ms|]; cbn [bind]; [|discriminate]. destruct (if c_include_deps cfg then _ else _); cbn [bind]; [|discriminate].
      destruct (check_passthrough_tables _ _) as [pt|]; cbn [bind]; [|discriminate].
      change (solve_order ord (without_constraints cfg)) with (solve_order ord cfg).
      destruct (solve_order _ _ _ _); cbn [bind]; [|discriminate]. destruct (of_meta _); cbn [bind]; [|discriminate].
      destruct (plan_tables _ _ _ _ _); cbn [bind]; [|discriminate]. destruct (plan_tables _ _ _ _ _); cbn [bind]; [|discriminate].
      intros E1 E2. inversion E1; inversion E2; subst. reflexivity. }
    split; [|exact Hpe].
    destruct Hshape as (_ & _ & Hpp & Hk & _). destruct Hs0 as (_ & _ & Hpp0 & Hk0 & _). rewrite Hk, Hk0, !map_app, <- Hpp, <- Hpp0, Hpe. reflexivity.
Qed.

(** C22 *)
Lemma extra_for_spec ms n x : NoDup (dkeys ms) -> (forall fk, In fk (extra_for ms n x) <-> extra_usable ms n x fk) /\ length (extra_for ms n x) <= 1.
Proof.
  intros Hn. unfold extra_for. destruct (parse_table_name (x_src x)) as [src|] eqn:Es.
  2: { split; [|auto]. intros fk. split; [intros []|]. intros (d & m & md & A & _). apply parse_Ok in A. unfold parse in A. rewrite Es in A. discriminate. }
  assert (Hs : named (x_src x) src) by (apply parse_Ok; unfold parse; rewrite Es; reflexivity).
  destruct (parse_table_name (x_dst x)) as [dst|] eqn:Ed.
  2: { split; [|auto]. intros fk. split; [intros []|]. intros (d & m & md & _ & A & _). apply parse_Ok in A. unfold parse in A. rewrite Ed in A. discriminate. }
  assert (Hd : named (x_dst x) dst) by (apply parse_Ok; unfold parse; rewrite Ed; reflexivity).
  destruct (dget ms src) as [m|] eqn:Em.
  2: { split; [|auto]. intros fk. split; [intros []|]. intros (d & m & md & A & _ & B & _). rewrite (named_fun A Hs) in B. apply (proj1 (dget_None _ _)) in Em. apply Em. apply in_map_iff. exists (src, m). tauto. }
  destruct (dget ms dst) as [md|] eqn:Emd.
  2: { split; [|auto]. intros fk. split; [intros []|]. intros (d & m' & md & _ & A & _ & B & _). rewrite (named_fun A Hd) in B. apply (proj1 (dget_None _ _)) in Emd. apply Emd. apply in_map_iff. exists (dst, md). tauto. }
  destruct (eqb n src && subsetb (x_src_cols x) (tb_cols (tm_table m)) && subsetb (x_dst_cols x) (tb_cols (tm_table md))) eqn:Ec; (split; [|auto]).
  - apply andb_true_iff in Ec. destruct Ec as [Ec E3]. apply andb_true_iff in Ec. destruct Ec as [E1 E2]. rewrite eqb_true in E1. subst src.
    intros fk. split.
    + intros [<-|[]]. exists dst, m, md. split; [exact Hs|]. split; [exact Hd|]. split; [apply dget_In; exact Em|]. split; [apply dget_In; exact Emd|].
      split; [apply subsetb_true; exact E2|]. split; [apply subsetb_true; exact E3|reflexivity].
    + intros (d & m' & md' & _ & B & _ & _ & _ & _ & ->). left. rewrite (named_fun B Hd). reflexivity.
  - intros fk. split; [intros []|]. intros (d & m' & md' & A & B & C & D & E & F & _). exfalso.
    assert (n = src) by exact (named_fun A Hs). assert (d = dst) by exact (named_fun B Hd). subst src dst.
    apply (In_dget Hn) in C. apply (In_dget Hn) in D. assert (m' = m) by congruence. assert (md' = md) by congruence. subst m' md'.
    rewrite eqb_refl in Ec. cbn [andb] in Ec. apply andb_false_iff in Ec. destruct Ec as [Ec|Ec]; [apply subsetb_true in E|apply subsetb_true in F]; congruence.
Qed.

Lemma edit_fks_exact ms : NoDup (dkeys ms) -> names_valid cfg ->
  exists ms', edit_fks cfg ms = Ok ms' /\ dkeys ms' = dkeys ms /\
    forall n m, In (n, m) (match c_infer cfg with InferNone => ms | InferSchema => infer_missing_foreign_keys false ms | InferAll => infer_missing_foreign_keys true ms end) ->
      exists keep used extra, In (n, mkMeta (tm_table m) (filter keep (tm_fks m) ++ extra) (tm_rev m)) ms' /\
        (forall fk, keep fk = true <-> ~ ignored_fk cfg n (fk_dst fk)) /\
        (forall x, used x = true <-> exists fk, extra_usable ms n x fk) /\
        Forall2 (extra_usable ms n) (filter used (c_extra_fks cfg)) extra.
Proof.
  intros Hn (_ & Hv1 & Hv2). rewrite (edit_fks_ok Hn Hv1 Hv2). eexists. split; [reflexivity|]. split; [rewrite mapf_keys; apply infer_of_keys|].
  intros n m Hm. exists (keepb (c_ignore_fks cfg) n), (fun x => negb (is_nil (extra_for ms n x))), (flat_map (extra_for ms n) (c_extra_fks cfg)). split.
  { apply mapf_In. exists m. split; [exact Hm|reflexivity]. }
  split; [intros fk; apply keepb_true|]. split.
  - intros x. destruct (extra_for_spec n x Hn) as [Hin _]. destruct (extra_for ms n x) as [|fk l]; cbn [is_nil negb].
    + split; [discriminate|]. intros [fk Hf]. destruct (proj2 (Hin fk) Hf).
    + split; [|reflexivity]. intros _. exists fk. apply Hin. left. reflexivity.
  - clear Hv2. induction (c_extra_fks cfg) as [|x l IH]; cbn [filter flat_map]; [constructor|]. destruct (extra_for_spec n x Hn) as [Hin Hlen].
    destruct (extra_for ms n x) as [|fk [|fk' l']] eqn:Ex; cbn [is_nil negb app]; [exact IH| |cbn in Hlen; lia].
    constructor; [apply Hin; left; reflexivity|exact IH].
Qed.

Section Pop.
Variable p : plan.
Hypothesis Hplan : plan_db ord ordp fnm cfg db = Ok p.
Hypothesis Hcfg : config_ok cfg.
Hypothesis Hxv : extras_valid cfg.
Variables (cmpf : cmpop -> value -> value -> bool)
          (textf : string -> option (dict string lit) -> row -> tv)
          (source sample : tname -> list row).
Hypothesis Hpop : populated cmpf textf source sample p.

Lemma pass_whole n : passed_through n -> Permutation (sample n) (source n).
Proof.
  intros Hn. destruct (plan_ok_shape Hdb Hord Hordp Hplan) as (pl & ns & _ & Hs & Hg & _).
  apply (sample_pass Hdb Hs Hg Hpop). apply (pass_iff Hs). exact Hn.
Qed.
Lemma rows_from_source n r : planned p n -> In r (sample n) -> In r (source n).
Proof.
  intros Hn. destruct (plan_ok_shape Hdb Hord Hordp Hplan) as (pl & ns & _ & Hs & Hg & _).
  apply (sample_source Hdb Hs Hg Hpop Hn).
Qed.
Lemma rows_once n : planned p n -> NoDup (source n) -> NoDup (sample n).
Proof.
  intros Hn. destruct (plan_ok_shape Hdb Hord Hordp Hplan) as (pl & ns & _ & Hs & Hg & _).
  apply (sample_nodup Hdb Hs Hg Hpop Hn).
Qed.

Lemma connected_no_dot n : connected n -> no_dot (fst n).
Proof. intros Hc. eapply chosen_no_dot; [exact Hdb|]. apply (@connected_active fnm cfg db) in Hc. apply Hc. Qed.
Lemma active_dot n : active n -> no_dot (fst n).
Proof. intros Hc. eapply chosen_no_dot; [exact Hdb|apply Hc]. Qed.
Lemma target_connected n g : is_target cfg n g -> connected n.
Proof.
  intros Ht. exists n, g. split; [exact Ht|]. split; [|apply rt_refl]. destruct Ht as (s & Hin & Hs).
  destruct (plan_ok_shape Hdb Hord Hordp Hplan) as (pl & ns & _ & _ & _ & _ & _ & _ & _ & _ & _ & _ & Ht).
  destruct (Ht s) as [->|(n' & Hn' & Ha)]; [apply in_map_iff; exists (s, g); tauto| |].
  - exfalso. apply (@render_nonempty n). symmetry. exact (named_eq Hs).
  - rewrite (named_fun Hs Hn'). exact Ha.
Qed.

Lemma tgt_none n : no_dot (fst n) -> (forall g, ~ is_target cfg n g) -> tgt_of cfg n = None.
Proof.
  intros Hd Hno. destruct (tgt_of cfg n) as [g|] eqn:Eg; [|reflexivity]. exfalso. apply (Hno g). apply is_target_iff; [apply Hcfg|exact Hd|exact Eg].
Qed.
Lemma tgt_some n g : is_target cfg n g -> tgt_of cfg n = Some g.
Proof.
  intros Ht. apply is_target_iff; [apply Hcfg| |exact Ht]. destruct Ht as (s & _ & Hs). apply Hs.
Qed.

(** C13 *)
Lemma fk_preserved1 : eq_symmetric cmpf ->
  (forall n g, is_target cfg n g -> tg_all g = true -> tg_amount g = None) ->
  forall n fk, considered n fk -> planned p n -> planned p (fk_dst fk) ->
  earlier_parent fnm cfg db p n fk \/ fk_holds cmpf fk (source n) (source (fk_dst fk)) -> fk_holds cmpf fk (sample n) (sample (fk_dst fk)).
Proof.
  intros Hsym Hall n fk Hc Hn Hd Hsrc.
  destruct (plan_ok_shape Hdb Hord Hordp Hplan) as (pl & ns & _ & Hs & Hg & _ & _ & _ & _ & _ & _ & _ & Hta).
  eapply fk_consistent1; try eassumption.
  intros n' g Htg. unfold tgt_of in Htg. apply dget_In in Htg.
  destruct (Hta (render n')) as [He|(n2 & Hn2 & _)]; [apply in_map_iff; eexists; split; [|exact Htg]; reflexivity|exfalso; exact (render_nonempty He)|].
  apply (Hall n2 g). exists (render n'). split; [exact Htg|exact Hn2].
Qed.

Lemma fk_preserved : eq_symmetric cmpf -> source_consistent fnm cfg db cmpf source ->
  (forall n g, is_target cfg n g -> tg_all g = true -> tg_amount g = None) ->
  forall n fk, considered n fk -> planned p n -> planned p (fk_dst fk) -> fk_holds cmpf fk (sample n) (sample (fk_dst fk)).
Proof. intros Hsym Hsrc Hall n fk Hc Hn Hd. apply (fk_preserved1 Hsym Hall Hc Hn Hd). right. exact (Hsrc n fk Hc). Qed.

(** C14, C15: a table planned after tables it refers to *)
Lemma from_parents n l : connected n -> constraints_of cfg n l -> (exists fk, earlier_parent fnm cfg db p n fk) ->
  exists keep, Permutation (sample n) (filter keep (source n)) /\
    forall r, keep r = true <->
      (forall c, In c l -> constr_holds cmpf textf source sample r c) /\
      forall fk, earlier_parent fnm cfg db p n fk -> exists r', In r' (sample (fk_dst fk)) /\ refers cmpf fk r r'.
Proof.
  intros Hcn Hl Hex. destruct (plan_ok_shape Hdb Hord Hordp Hplan) as (pl & ns & _ & Hs & Hg & _).
  apply constraints_iff in Hl; [|apply Hcfg|apply connected_no_dot; exact Hcn]. subst l.
  eapply sample_from_parents; eassumption.
Qed.

Lemma maximal_nonnull n l r : connected n -> constraints_of cfg n l -> (exists fk, earlier_parent fnm cfg db p n fk) ->
  (forall fk c, earlier_parent fnm cfg db p n fk -> In c (fk_cols fk) -> rget r c <> VNull) ->
  In r (source n) /\ (forall c, In c l -> constr_holds cmpf textf source sample r c) /\
  (forall fk, earlier_parent fnm cfg db p n fk -> fk_holds cmpf fk [r] (sample (fk_dst fk))) -> In r (sample n).
Proof.
  intros Hcn Hl Hex Hnn (Hsrc & Hcs & Hfk). destruct (from_parents Hcn Hl Hex) as (keep & Hperm & Hkeep).
  eapply Permutation_in; [symmetry; exact Hperm|]. apply filter_In. split; [exact Hsrc|]. apply Hkeep. split; [exact Hcs|].
  intros fk Hp. apply (Hfk fk Hp r); [left; reflexivity|]. intros c Hc. exact (Hnn fk c Hp Hc).
Qed.

(** C16 *)
Lemma from_children n : eq_symmetric cmpf -> connected n -> (forall g, ~ is_target cfg n g) -> (exists c fk, earlier_child fnm cfg db p n c fk) ->
  exists keep, Permutation (sample n) (filter keep (source n)) /\
    forall r, keep r = true <-> exists c fk r', earlier_child fnm cfg db p n c fk /\ In r' (sample c) /\ refers cmpf fk r' r.
Proof.
  intros Hsym Hcn Hnt Hex. destruct (plan_ok_shape Hdb Hord Hordp Hplan) as (pl & ns & _ & Hs & Hg & _).
  eapply sample_from_children; try eassumption. apply tgt_none; [apply connected_no_dot; exact Hcn|exact Hnt].
Qed.

(** Each planned table that is not passed through is of one of three kinds. *)
Lemma table_kinds n : connected n ->
  ((exists fk, earlier_parent fnm cfg db p n fk) /\ (forall c fk, ~ earlier_child fnm cfg db p n c fk) /\ (forall g, ~ is_target cfg n g)) \/
  ((forall fk, ~ earlier_parent fnm cfg db p n fk) /\ (exists c fk, earlier_child fnm cfg db p n c fk)) \/
  ((forall fk, ~ earlier_parent fnm cfg db p n fk) /\ (forall c fk, ~ earlier_child fnm cfg db p n c fk) /\ exists g, is_target cfg n g).
Proof.
  intros Hcn. destruct (plan_ok_shape Hdb Hord Hordp Hplan) as (pl & ns & _ & Hs & Hg & _).
  assert (Hin : In n ns) by (apply (ns_iff Hg); exact Hcn).
  assert (Hact : forall m, In m ns -> active m) by (intros m; apply (ns_active Hg)).
  assert (Hpar : forall fk, earlier_parent fnm cfg db p n fk <-> pos_parent fnm cfg db ns n fk) by (intros fk; eapply parent_iff; eassumption).
  assert (Hchi : forall c fk, earlier_child fnm cfg db p n c fk <-> pos_child fnm cfg db ns n c fk) by (intros c fk; eapply child_iff; eassumption).
  assert (Htg : forall g, ~ is_target cfg n g <-> tgt_of cfg n <> Some g).
  { intros g. rewrite is_target_iff; [reflexivity|apply Hcfg|apply connected_no_dot; exact Hcn]. }
  pose proof (tgt_In cfg n) as Hti.
  assert (Hed1 : forall d, active_edge fnm cfg db n d -> before ns d n -> exists fk, earlier_parent fnm cfg db p n fk).
  { intros d (_ & _ & fk & Hc & Hd) Hb. exists fk. apply Hpar. split; [exact Hc|rewrite Hd; exact Hb]. }
  assert (Hed2 : forall d, active_edge fnm cfg db d n -> before ns d n -> exists c fk, earlier_child fnm cfg db p n c fk).
  { intros d (_ & _ & fk & Hc & Hd) Hb. exists d, fk. apply Hchi. split; [exact Hc|split; [exact Hd|exact Hb]]. }
  assert (Hpn : (forall d, before ns d n -> ~ active_edge fnm cfg db n d) -> forall fk, ~ earlier_parent fnm cfg db p n fk).
  { intros H fk (H1 & H2 & H3 & H4). apply (H (fk_dst fk)).
    - apply (Hpar fk). split; [exact H1|split; [exact H2|split; [exact H3|exact H4]]].
    - split; [exact H1|split; [exact H2|]]. exists fk. tauto. }
  assert (Hcn' : (forall d, before ns d n -> ~ active_edge fnm cfg db d n) -> forall c fk, ~ earlier_child fnm cfg db p n c fk).
  { intros H c fk (H1 & H2 & H3 & H4 & H5). apply (H c).
    - apply (Hchi c fk). split; [exact H1|split; [exact H2|split; [exact H3|split; [exact H4|exact H5]]]].
    - split; [exact H2|split; [exact H1|]]. exists fk. tauto. }
  destruct (proj2 (proj2 (proj2 Hg)) n Hin) as [((d & Hb & Hed) & Hnc & Hnt)|(Hnp & [Ht|(c & Hb & Hed)])].
  - left. split; [apply (Hed1 d); assumption|]. split; [apply Hcn'; exact Hnc|]. intros g. apply Htg. intros E. apply Hnt, Hti. congruence.
  - right. destruct (tgt_of cfg n) as [g|] eqn:Eg; [|exfalso; apply Hti in Ht; congruence].
    destruct (proj2 (proj2 (proj2 (proj2 (proj2 Hs)))) n Hin) as (st & _ & (t & par & chi & _ & _ & Hch & _)).
    destruct chi as [|rk chi].
    + right. split; [apply Hpn; exact Hnp|]. split; [|exists g; apply is_target_iff; [apply Hcfg|apply connected_no_dot; exact Hcn|exact Eg]].
      intros c fk Hc. apply Hchi in Hc. apply (Hch (mirror c fk)). exists c, fk. tauto.
    + left. split; [apply Hpn; exact Hnp|]. destruct (proj1 (Hch rk) (or_introl eq_refl)) as (c & fk & Hc & _). exists c, fk. apply Hchi. exact Hc.
  - right. left. split; [apply Hpn; exact Hnp|apply (Hed2 c); assumption].
Qed.

(** C17 *)
Lemma target_selection n g : is_target cfg n g -> (forall c fk, ~ earlier_child fnm cfg db p n c fk) \/ tg_all g = true ->
  own_selection cmpf textf g (source n) (sample n).
Proof.
  intros Ht Hno. destruct (plan_ok_shape Hdb Hord Hordp Hplan) as (pl & ns & _ & Hs & Hg & _).
  eapply sample_target; try eassumption; [apply (ns_iff Hg); eapply target_connected; exact Ht|apply tgt_some; exact Ht].
Qed.
(** C18 *)
Lemma target_all n g : is_target cfg n g -> tg_all g = true -> tg_amount g = None -> Permutation (sample n) (source n).
Proof.
  intros Ht Ha Hn. eapply all_selection; [exact Ha|exact Hn|]. eapply target_selection; [exact Ht|right; exact Ha].
Qed.
(** C19 *)
Lemma target_referenced n g : eq_symmetric cmpf -> is_target cfg n g -> (exists c fk, earlier_child fnm cfg db p n c fk) -> tg_all g = false ->
  exists own, own_selection cmpf textf g (source n) own /\ (forall r, In r own -> In r (sample n)) /\
    (forall r c fk r', In r (source n) -> earlier_child fnm cfg db p n c fk -> In r' (sample c) -> refers cmpf fk r' r -> In r (sample n)) /\
    (tg_amount g <> None -> forall r, In r (sample n) -> In r own \/
       (In r (source n) /\ exists c fk r', earlier_child fnm cfg db p n c fk /\ In r' (sample c) /\ refers cmpf fk r' r)).
Proof.
  intros Hsym Ht Hex Ha. destruct (plan_ok_shape Hdb Hord Hordp Hplan) as (pl & ns & _ & Hs & Hg & _).
  eapply sample_both; try eassumption. apply tgt_some; exact Ht.
Qed.
Lemma target_referenced_whole n g : is_target cfg n g -> (exists c fk, earlier_child fnm cfg db p n c fk) -> tg_all g = false ->
  tg_amount g = None -> (forall q, tg_percent g = Some q -> Qlt 0 q) -> Permutation (sample n) (source n).
Proof.
  intros Ht Hex Ha Hn Hq. destruct (plan_ok_shape Hdb Hord Hordp Hplan) as (pl & ns & _ & Hs & Hg & _).
  eapply sample_both_merged; try eassumption. apply tgt_some; exact Ht.
Qed.
(** C20 *)
Lemma constraints_respected n l r : connected n -> (forall g, ~ is_target cfg n g) -> constraints_of cfg n l -> In r (sample n) ->
  forall c, In c l -> constr_holds cmpf textf source sample r c.
Proof.
  intros Hcn Hnt Hl Hr. destruct (plan_ok_shape Hdb Hord Hordp Hplan) as (pl & ns & _ & Hs & Hg & _).
  apply constraints_iff in Hl; [|apply Hcfg|apply connected_no_dot; exact Hcn]. subst l.
  eapply constraints_hold; try eassumption. apply tgt_none; [apply connected_no_dot; exact Hcn|exact Hnt].
Qed.
End Pop.
End Wrap.
