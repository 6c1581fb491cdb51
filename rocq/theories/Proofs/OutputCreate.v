(** Creating missing tables. *)
From Coq Require Import Lia Relations.Operators_Properties.
From Verif Require Import Model.Base Model.Value Model.Names Model.Solver Model.Metadata Model.Filters Model.Dest Model.Output.
From Verif Require Import Spec.GraphSpec Spec.SchemaSpec Spec.OutputSpec.
From Verif Require Import Proofs.BaseFacts Proofs.GraphFacts Proofs.NameFacts Proofs.SolverMain Proofs.MetadataFacts Proofs.OutputRows Proofs.OutputDb.
Set Implicit Arguments. Unset Strict Implicit.
Open Scope list_scope.

Section Create.
Variable resub : string -> string -> string -> string.
Variable cfg : db_config.
Variable planned : list string.
Notation rules := (oc_remap cfg).
Notation tgt := (target resub rules planned).

Definition absent (ms : meta) (l : dict string string) : list tname :=
  flat_map (fun rt => match parse_table_name (fst rt) with Some n' => if dmem ms n' then [] else [n'] | None => [] end) l.

Lemma new_tables_loop (ms smeta : meta) (rm : dict string string) : meta_ok ms -> forall l objs0 cr0 objs cr,
  incl l rm ->
  forM (fun acc rt =>
      let '(objs, created) := acc in
      let* n' := parse_name (fst rt) in
      match dget ms n' with
      | Some m => Ok (dset objs (snd rt) (tm_table m), created)
      | None =>
          let* n := parse_name (snd rt) in
          let* sm := find_key smeta n in
          let st := tm_table sm in
          let t := mkTable n' (tb_cols st) (tb_pk st) [] [] in
          Ok (dset objs (snd rt) t, created ++ [(snd rt, (t, st))])
      end) l (objs0, cr0) = Ok (objs, cr) ->
  exists new, cr = cr0 ++ new /\ map (fun x => tb_name (fst (snd x))) new = absent ms l /\
    (forall s t st, In (s, (t, st)) new -> exists n sm, named s n /\ dget smeta n = Some sm /\ st = tm_table sm /\ In (render (tb_name t), s) rm /\ no_dot (fst (tb_name t)) /\
       t = mkTable (tb_name t) (tb_cols st) (tb_pk st) [] []) /\
    (forall s t, dget objs s = Some t -> dget objs0 s = Some t \/ (In (render (tb_name t), s) rm /\ no_dot (fst (tb_name t)))).
Proof.
  intros Hms. induction l as [|[k s] l IH]; intros objs0 cr0 objs cr Hincl H; cbn [forM fst snd] in H.
  - inv H. exists []. rewrite app_nil_r. split; [reflexivity|]. split; [reflexivity|]. split; [intros ? ? ? []|tauto].
  - apply bind_Ok in H. destruct H as ([objs1 cr1] & H1 & H). apply IH in H; [|intros x Hx; apply Hincl; now right].
    destruct H as (new & -> & Hnames & Hnew & Hobjs). unfold parse_name in H1. destruct (parse_table_name k) as [n'|] eqn:Hp; [|discriminate].
    cbn [bind] in H1. unfold absent. cbn [flat_map fst]. rewrite Hp. apply parse_named in Hp. unfold dmem, dget in *. fold (@dget tname tmeta _ ms n') in *.
    destruct Hp as [Hk Hdot]. assert (Hin : In (render n', s) rm) by (apply Hincl; left; now rewrite Hk).
    destruct (dget ms n') as [m|] eqn:Hm.
    + inv H1. exists new. split; [reflexivity|]. cbn [is_some app]. split; [exact Hnames|]. split; [exact Hnew|].
      intros s' t' Hd. destruct (Hobjs s' t' Hd) as [Hx|Hx]; [|tauto]. destruct (eq_dec s s') as [->|Hne].
      * rewrite dget_dset_eq in Hx. inv Hx. right. apply dget_In in Hm. pose proof (proj2 Hms _ _ Hm) as Hn. unfold tm_name in Hn. rewrite Hn. tauto.
      * rewrite dget_dset_ne in Hx by congruence. tauto.
    + apply bind_Ok in H1. destruct H1 as (n & Hn & H1). apply bind_Ok in H1. destruct H1 as (sm & Hsm & H1). inv H1.
      unfold parse_name in Hn. destruct (parse_table_name s) as [n0|] eqn:Hs; [|discriminate]. inv Hn. apply parse_named in Hs.
      unfold find_key in Hsm. apply dfind_Ok in Hsm.
      eexists (_ :: new). rewrite <- app_assoc. split; [reflexivity|]. cbn [map fst snd is_some app]. split; [cbn [tb_name]; f_equal; exact Hnames|].
      split.
      * intros s' t' st' [He|Hin']; [|now apply Hnew]. inv He. exists n, sm. cbn [tb_name]. split; [exact Hs|]. split; [exact Hsm|]. split; [reflexivity|]. split; [exact Hin|]. split; [exact Hdot|reflexivity].
      * intros s' t' Hd. destruct (Hobjs s' t' Hd) as [Hx|Hx]; [|tauto]. destruct (eq_dec s s') as [->|Hne].
        -- rewrite dget_dset_eq in Hx. inv Hx. cbn [tb_name]. tauto.
        -- rewrite dget_dset_ne in Hx by congruence. tauto.
Qed.

Lemma absent_NoDup ms l : NoDup (dkeys l) -> NoDup (absent ms l).
Proof.
  induction l as [|[k s] l IH]; cbn [dkeys map]; intros Hn; [constructor|]. apply NoDup_cons_iff in Hn. destruct Hn as [Hk Hn].
  unfold absent. cbn [flat_map fst]. destruct (parse_table_name k) as [n'|] eqn:Hp; [|now apply IH]. destruct (dmem ms n'); [now apply IH|].
  cbn [app]. constructor; [|now apply IH]. intros Hin. apply in_flat_map in Hin. destruct Hin as ([k' s'] & Hin & Hx). cbn [fst] in Hx.
  destruct (parse_table_name k') as [n2|] eqn:Hp'; [|destruct Hx]. destruct (dmem ms n2); [destruct Hx|]. destruct Hx as [->|[]].
  apply Hk. apply parse_named in Hp, Hp'. apply in_map_iff. exists (k', s'). split; [|exact Hin]. cbn. now rewrite (named_eq Hp), (named_eq Hp').
Qed.
Lemma absent_In ms l n : In n (absent ms l) <-> no_dot (fst n) /\ In (render n) (dkeys l) /\ ~ In n (dkeys ms).
Proof.
  unfold absent. rewrite in_flat_map. split.
  - intros ([k s] & Hin & Hx). cbn [fst] in Hx. destruct (parse_table_name k) as [n2|] eqn:Hp; [|destruct Hx]. destruct (dmem ms n2) eqn:Hd; [destruct Hx|].
    destruct Hx as [->|[]]. apply parse_named in Hp. destruct Hp as [-> Hdot]. split; [exact Hdot|]. split; [apply in_map_iff; exists (render n, s); tauto|now apply dmem_false].
  - intros (Hdot & Hk & Hd). apply in_map_iff in Hk. destruct Hk as ([k s] & Hk & Hin). cbn in Hk. subst k. exists (render n, s). split; [exact Hin|].
    cbn [fst]. rewrite (parse_render Hdot). apply dmem_false in Hd. rewrite Hd. now left.
Qed.

Variable dflt : tname -> string -> list row -> row -> value.
Variable accepts : dest -> event -> bool.

Lemma fold_dset_keys ts : forall ms : meta, NoDup (dkeys ms) -> NoDup (map tb_name ts) -> (forall t, In t ts -> ~ In (tb_name t) (dkeys ms)) ->
  fold_left (fun ms t => dset ms (tb_name t) (new_meta t)) ts ms = ms ++ map (fun t => (tb_name t, new_meta t)) ts.
Proof.
  induction ts as [|t ts IH]; intros ms Hn Hts Hd; cbn [fold_left map]; [now rewrite app_nil_r|].
  cbn [map] in Hts. apply NoDup_cons_iff in Hts. destruct Hts as [Ht Hts].
  assert (Hnew : dset ms (tb_name t) (new_meta t) = ms ++ [(tb_name t, new_meta t)]).
  { assert (Hx : ~ In (tb_name t) (dkeys ms)) by (apply Hd; now left). clear - Hx. induction ms as [|[k v] ms IH]; [reflexivity|]. cbn [dset app].
    cbn in Hx. destruct (eq_dec (tb_name t) k) as [E|Hne]; [exfalso; apply Hx; left; now symmetry|]. rewrite IH; [reflexivity|tauto]. }
  rewrite IH.
  - rewrite Hnew, <- app_assoc. reflexivity.
  - now apply dset_NoDup.
  - exact Hts.
  - intros t' Ht'. rewrite Hnew. unfold dkeys. rewrite map_app, in_app_iff. cbn. intros [Hx|[Hx|[]]]; [apply (Hd t'); [now right|exact Hx]|].
    apply Ht. rewrite Hx. now apply in_map.
Qed.

Lemma create_spec (db : list table) (o : db_output) (smeta : meta) w w' r :
  ds_tables (w_dest w) = db -> tracked resub cfg planned db o -> 
  (forall n m, dget smeta n = Some m -> tm_name m = n /\ forall fk, In fk (tb_fks (tm_table m)) -> no_dot (fst (fk_dst fk))) ->
  db_create dflt accepts o smeta w = (w', r) ->
  ((exists e, r = Err e) /\ w' = w) \/
  exists ts o', r = Ok o' /\ NoDup (map tb_name ts) /\
    (forall n', In n' (map tb_name ts) <-> tgt n' /\ ~ In n' (dkeys (ou_meta o))) /\
    (forall t, In t ts -> exists s n sm, In s planned /\ named s n /\ dget smeta n = Some sm /\ duplicates resub rules (tm_table sm) t /\
       forall fk, In fk (tb_fks t) -> tgt (fk_dst fk)) /\
    ds_tables (w_dest w') = db ++ ts /\ ds_rows (w_dest w') = ds_rows (w_dest w) /\ ds_seq (w_dest w') = ds_seq (w_dest w) /\
    (trace w' = trace w /\ ts = [] \/ trace w' = trace w ++ [EvCreate ts]) /\
    ou_meta o' = ou_meta o ++ map (fun t => (tb_name t, new_meta t)) ts /\ ou_remap o' = ou_remap o /\ ou_offsets o' = ou_offsets o.
Proof.
  intros Hdb Htk Hsm H. unfold db_create in H.
  apply bind_io_inv in H. destruct H as [(w1 & [objs created] & H1 & H)|(e & H1 & ->)]; [|left; apply lift_inv in H1; destruct H1 as [-> _]; eauto].
  apply lift_inv in H1. destruct H1 as [-> Hnew].
  apply bind_io_inv in H. destruct H as [(w1 & ts & H1 & H)|(e & H1 & ->)]; [|left; apply lift_inv in H1; destruct H1 as [-> _]; eauto].
  apply lift_inv in H1. destruct H1 as [-> Hts].
  unfold new_tables in Hnew. apply (new_tables_loop (rm := ou_remap o) (tk_meta Htk)) in Hnew; [|intros x Hx; exact Hx].
  destruct Hnew as (new & -> & Hnames & Hcr & Hobjs). cbn [app] in Hts.
  destruct (remap_spec (tk_remap Htk)) as (Hrn & Hrd).
  assert (Htgt : forall n' s, In (render n', s) (ou_remap o) -> no_dot (fst n') -> In s planned /\ exists n, named s n /\ goes_to resub rules n n').
  { intros n' s Hin Hdot. apply (In_dget Hrn) in Hin. apply Hrd in Hin. destruct Hin as (Hs & n & n2 & Hn & Hg & He).
    assert (n2 = n') by (apply render_inj; [exact (goes_dot Hg)|exact Hdot|now symmetry]). subst n2. eauto. }
  assert (HF : Forall2 (fun x t => copy_constraints objs (fst (snd x)) (snd (snd x)) = Ok t) new ts) by (apply mapM_Ok; exact Hts).
  assert (Hname : forall x t, copy_constraints objs (fst (snd x)) (snd (snd x : table * table)) = Ok t -> tb_name t = tb_name (fst (snd (x : string * (table * table))))).
  { intros x t Hc. unfold copy_constraints in Hc. apply bind_Ok in Hc. destruct Hc as (us & _ & Hc). apply bind_Ok in Hc. destruct Hc as (fks & _ & Hc). inv Hc. reflexivity. }
  assert (Htsn : map tb_name ts = absent (ou_meta o) (ou_remap o)).
  { rewrite <- Hnames. clear - HF Hname. induction HF as [|x t l l' Hx _ IH]; [reflexivity|]. cbn [map]. rewrite IH. f_equal. now apply Hname. }
  assert (Hrc : forall n cols d, remap_cols objs n cols = Ok d -> no_dot (fst n) -> tgt d /\ goes_to resub rules n d).
  { intros n cols d Hc Hdot. unfold remap_cols, find_key in Hc. apply bind_Ok in Hc. destruct Hc as (t & Ht & Hc). apply dfind_Ok in Ht.
    destruct (subsetb cols (tb_cols t)); [|discriminate]. inv Hc. destruct (Hobjs _ _ Ht) as [Hx|[Hin Hd]]; [discriminate|].
    destruct (Htgt _ _ Hin Hd) as (Hs & n0 & Hn0 & Hg). rewrite (named_fun (named_render Hdot) Hn0). split; [exists (render n), n0; tauto|exact Hg]. }
  assert (Hmir : forall t, In t ts -> exists s n sm, In s planned /\ named s n /\ dget smeta n = Some sm /\ duplicates resub rules (tm_table sm) t /\
       forall fk, In fk (tb_fks t) -> tgt (fk_dst fk)).
  { intros t Ht. destruct (Forall2_In_r HF Ht) as ([s [t0 st]] & Hin & Hc). cbn [fst snd] in Hc.
    destruct (Hcr _ _ _ Hin) as (n & sm & Hn & Hsmn & -> & Hr & Hd & Et0). destruct (Htgt _ _ Hr Hd) as (Hs & n2 & Hn2 & Hg).
    rewrite (named_fun Hn2 Hn) in Hg. destruct (Hsm _ _ Hsmn) as [Hnm Hdots].
    exists s, n, sm. split; [exact Hs|]. split; [exact Hn|]. split; [exact Hsmn|].
    unfold copy_constraints in Hc. apply bind_Ok in Hc. destruct Hc as (us & Hus & Hc). apply bind_Ok in Hc. destruct Hc as (fks & Hfks & Hc). inv Hc.
    cbn [tb_name tb_cols tb_pk tb_uniques tb_fks]. apply mapM_Ok in Hus, Hfks.
    assert (HF2 : Forall2 (fun fk fk' => fk_cols fk' = fk_cols fk /\ fk_dst_cols fk' = fk_dst_cols fk /\ goes_to resub rules (fk_dst fk) (fk_dst fk') /\ tgt (fk_dst fk'))
       (tb_fks (tm_table sm)) fks).
    { clear - Hfks Hdots Hrc. revert Hdots. induction Hfks as [|fk fk' l l' Hx _ IH]; intros Hdots; constructor.
      - apply bind_Ok in Hx. destruct Hx as (d & Hd & Hx). apply bind_Ok in Hx. destruct Hx as (d2 & _ & Hx). inv Hx. cbn [fk_cols fk_dst fk_dst_cols].
        destruct (Hrc _ _ _ Hd) as [Ha Hb]; [apply Hdots; now left|tauto].
      - apply IH. intros fk0 H0. apply Hdots. now right. }
    split.
    - unfold duplicates. cbn [tb_name tb_cols tb_pk tb_uniques tb_fks]. rewrite Et0. cbn [tb_cols tb_pk tb_name].
      split; [exact Hg|]. split; [reflexivity|]. split; [reflexivity|].
      split; [|clear - HF2; induction HF2 as [|x y l l' Hx _ IH]; constructor; [tauto|exact IH]].
      clear - Hus. induction Hus as [|u u' l l' Hx _ IH]; [reflexivity|]. apply bind_Ok in Hx. destruct Hx as (d & _ & Hx). inv Hx. reflexivity.
    - intros fk Hfk. destruct (Forall2_In_r HF2 Hfk) as (fk0 & _ & Hx). apply Hx. }
  assert (Hkeys : forall n', In n' (map tb_name ts) <-> tgt n' /\ ~ In n' (dkeys (ou_meta o))).
  { intros n'. rewrite Htsn, absent_In, (target_key (tk_remap Htk)). split.
    - intros (Hdot & (n2 & He & Hn2) & Hni). split; [|exact Hni]. assert (n' = n2); [|now subst].
      apply render_inj; [exact Hdot| |exact He]. destruct Hn2 as (s & n & _ & _ & Hg). exact (goes_dot Hg).
    - intros [Hn' Hni]. split; [|split; [eauto|exact Hni]]. destruct Hn' as (s & n & _ & _ & Hg). exact (goes_dot Hg). }
  assert (Hnd : NoDup (map tb_name ts)) by (rewrite Htsn; now apply absent_NoDup).
  destruct (is_nil ts) eqn:Hnil.
  - right. inv H. destruct ts; [|discriminate]. exists [], o. cbn [map app]. rewrite !app_nil_r. split; [reflexivity|]. split; [exact Hnd|]. split; [exact Hkeys|]. split; [exact Hmir|].
    split; [reflexivity|]. split; [reflexivity|]. split; [reflexivity|]. split; [left; tauto|]. split; [reflexivity|split; reflexivity].
  - apply bind_io_inv in H. destruct H as [(w1 & [] & H1 & H)|(e & H1 & ->)].
    2:{ left. apply send_inv in H1. destruct H1 as [(Hx & _)|(_ & ->)]; [discriminate|eauto]. }
    right. inv H. apply send_inv in H1. destruct H1 as [(_ & Hex & Htr)|(Hx & _)]; [|discriminate]. cbn [exec] in Hex. injection Hex as Hex.
    exists ts. eexists. split; [reflexivity|]. split; [exact Hnd|]. split; [exact Hkeys|]. split; [exact Hmir|].
    rewrite <- Hex. cbn [ds_tables ds_rows ds_seq ou_meta ou_remap ou_offsets]. split; [reflexivity|]. split; [reflexivity|]. split; [reflexivity|].
    split; [right; exact Htr|]. split; [|split; reflexivity]. apply fold_dset_keys; [apply (tk_meta Htk)|exact Hnd|].
    intros t Ht. apply Hkeys. now apply in_map.
Qed.

(** After creation every planned table is there, and the output works on the affected tables. *)
Lemma create_tracked (db ts : list table) (o o' : db_output) :
  db_ok db -> tracked resub cfg planned db o -> NoDup (map tb_name ts) ->
  (forall n', In n' (map tb_name ts) <-> tgt n' /\ ~ In n' (dkeys (ou_meta o))) ->
  ou_meta o' = ou_meta o ++ map (fun t => (tb_name t, new_meta t)) ts -> ou_remap o' = ou_remap o ->
  tracked resub cfg planned (db ++ ts) o' /\ (forall n', tgt n' -> In n' (dkeys (ou_meta o'))).
Proof.
  intros Hdb Htk Hnd Hkeys Hmeta Hrm.
  assert (Hk : forall n, In n (dkeys (ou_meta o')) <-> In n (dkeys (ou_meta o)) \/ In n (map tb_name ts)).
  { intros n. rewrite Hmeta. unfold dkeys. rewrite map_app, map_map, in_app_iff. reflexivity. }
  assert (Hfresh : forall n t, In n (map tb_name ts) -> table_of db n t -> False).
  { intros n t Hn Ht. apply Hkeys in Hn. destruct Hn as [Hn Hni]. apply Hni. apply (tk_keys Htk). exists n. split; [exact Hn|]. split; [eauto|apply rt_refl]. }
  assert (Hdots : forall n, In n (map tb_name ts) -> no_dot (fst n)).
  { intros n Hn. apply Hkeys in Hn. destruct Hn as [(s & n0 & _ & _ & Hg) _]. exact (goes_dot Hg). }
  split.
  - constructor.
    + rewrite map_app. apply NoDup_app_iff. split; [apply (tk_names Htk)|]. split; [exact Hnd|]. intros n H1 H2. apply in_map_iff in H1. destruct H1 as (t & <- & Ht).
      eapply Hfresh; [exact H2|split; [exact Ht|reflexivity]].
    + split.
      * rewrite Hmeta. unfold dkeys. rewrite map_app, map_map. cbn [fst]. apply NoDup_app_iff. split; [apply (tk_meta Htk)|]. split; [exact Hnd|].
        intros n H1 H2. apply Hkeys in H2. tauto.
      * intros n m Hin. rewrite Hmeta in Hin. apply in_app_iff in Hin. destruct Hin as [Hin|Hin]; [now apply (tk_meta Htk)|].
        apply in_map_iff in Hin. destruct Hin as (t & He & Ht). inv He. reflexivity.
    + intros n Hn. apply Hk in Hn. destruct Hn as [Hn|Hn]; [now apply (tk_dots Htk)|now apply Hdots].
    + intros n m Hin. rewrite Hmeta in Hin. apply in_app_iff in Hin. destruct Hin as [Hin|Hin].
      * destruct (tk_tables Htk Hin) as [[H1 H2] H3]. split; [split; [apply in_app_iff; now left|exact H2]|exact H3].
      * apply in_map_iff in Hin. destruct Hin as (t & He & Ht). inv He. split; [split; [apply in_app_iff; now right|reflexivity]|reflexivity].
    + assert (Hmono : forall a b, references db a b -> references (db ++ ts) a b).
      { intros a b (t & fk & [Ht Hn] & Hr). exists t, fk. split; [split; [apply in_app_iff; now left|exact Hn]|exact Hr]. }
      intros n. rewrite Hk. split.
      * intros [Hn|Hn].
        -- apply (tk_keys Htk) in Hn. destruct Hn as (m & Hm & (t & [Ht Hn]) & Hp). exists m. split; [exact Hm|].
           split; [exists t; split; [apply in_app_iff; now left|exact Hn]|].
           clear - Hp Hmono. induction Hp as [a b Hx|a|a b c _ IH1 _ IH2]; [apply rt_step, Hmono, Hx|apply rt_refl|eapply rt_trans; eassumption].
        -- pose proof (proj1 (Hkeys n) Hn) as [Hm _]. exists n. split; [exact Hm|]. apply in_map_iff in Hn. destruct Hn as (t & <- & Ht).
           split; [exists t; split; [apply in_app_iff; now right|reflexivity]|apply rt_refl].
      * intros (m & Hm & (t & [Ht Hn]) & Hp).
        assert (Hstart : In m (dkeys (ou_meta o)) \/ In m (map tb_name ts)).
        { apply in_app_iff in Ht. destruct Ht as [Ht|Ht]; [left|right; rewrite <- Hn; now apply in_map].
          apply (tk_keys Htk). exists m. split; [exact Hm|]. split; [exists t; split; assumption|apply rt_refl]. }
        clear - Hp Hstart Htk Hdb Hkeys Hfresh. apply clos_rt_rt1n in Hp.
        induction Hp as [a|a b c Hab _ IH]; [exact Hstart|]. apply IH. destruct Hab as (t & fk & [Ht Hn] & Hfk & Hd).
        apply in_app_iff in Ht. destruct Ht as [Ht|Ht]; [left|right; rewrite <- Hn; now apply in_map].
        destruct Hstart as [Hs|Hs].
        -- apply (tk_keys Htk) in Hs. apply (tk_keys Htk). destruct Hs as (m & Hm & Hx & Hp). exists m. split; [exact Hm|]. split; [exact Hx|].
           eapply rt_trans; [exact Hp|]. apply rt_step. exists t, fk. split; [split; assumption|tauto].
        -- exfalso. destruct (proj2 Hdb t Ht) as (_ & _ & _ & Hwf). destruct (Hwf fk Hfk) as (_ & _ & _ & d & Hdt & _). rewrite Hd in Hdt. eapply Hfresh; eassumption.
    + rewrite Hrm. apply (tk_remap Htk).
  - intros n' Hn'. apply Hk. destruct (in_dec eq_dec n' (dkeys (ou_meta o))) as [Hi|Hi]; [now left|right; apply Hkeys; tauto].
Qed.

(** ** Truncation *)
Lemma for_send {A} (ev : A -> event) : forall l w w' r, for_io (fun _ x => send dflt accepts OxDbError (ev x)) l tt w = (w', r) ->
  exists l1 l2, l = l1 ++ l2 /\ trace w' = trace w ++ map ev l1 /\ (r = Ok tt -> l2 = []) /\ replay dflt (w_dest w) (map ev l1) (w_dest w').
Proof.
  induction l as [|a l IH]; intros w w' r H; cbn [for_io] in H.
  - inv H. exists [], []. cbn [map app]. rewrite app_nil_r. split; [reflexivity|]. split; [reflexivity|]. split; [reflexivity|constructor].
  - apply bind_io_inv in H. destruct H as [(w1 & [] & H1 & H)|(e & H1 & ->)].
    + apply send_inv in H1. destruct H1 as [(_ & Hex & Htr)|(Hx & _)]; [|discriminate]. destruct (IH _ _ _ H) as (l1 & l2 & -> & Ht2 & Hok & Hrep).
      exists (a :: l1), l2. split; [reflexivity|]. split; [rewrite Ht2, Htr, <- app_assoc; reflexivity|]. split; [exact Hok|]. cbn [map]. econstructor; eassumption.
    + apply send_inv in H1. destruct H1 as [(Hx & _)|(_ & ->)]; [discriminate|]. exists [], (a :: l). cbn [map app]. rewrite app_nil_r.
      split; [reflexivity|]. split; [reflexivity|]. split; [discriminate|constructor].
Qed.

Variable ord : list string -> list string.
Hypothesis Hord : any_order ord.

Lemma truncate_spec db o w w' r : tracked resub cfg planned db o -> db_truncate dflt accepts ord o w = (w', r) ->
  ((exists e, r = Err e) /\ w' = w) \/
  exists del l1 l2, del = l1 ++ l2 /\ NoDup del /\ (forall n, In n del <-> affected resub rules db planned n) /\
    (forall a b, references db a b -> In a del -> In b del -> before del a b) /\
    trace w' = trace w ++ map EvDelete l1 /\ replay dflt (w_dest w) (map EvDelete l1) (w_dest w') /\ (r = Ok tt -> l2 = []).
Proof.
  intros Htk H. unfold db_truncate in H. apply bind_io_inv in H. destruct H as [(w1 & l & H1 & H)|(e & H1 & ->)]; [|left; apply lift_inv in H1; destruct H1 as [-> _]; eauto].
  apply lift_inv in H1. destruct H1 as [-> Hl]. right. unfold of_topo in Hl.
  destruct (meta_toposort ord (ou_meta o)) as [l'|e] eqn:Et; [|destruct e; discriminate]. inv Hl.
  destruct (mtopo_spec Hord (tk_meta Htk) (tk_dots Htk) Et) as (HP & HN & Hin & Hb).
  destruct (for_send (ev := fun m => EvDelete (tm_name m)) H) as (l1 & l2 & Hl & Htr & Hok & Hrep).
  assert (Hmap : map (fun m => EvDelete (tm_name m)) l1 = map EvDelete (map tm_name l1)) by (now rewrite map_map). rewrite Hmap in *.
  assert (Hdel : forall n, In n (rev (map tm_name l)) <-> affected resub rules db planned n).
  { intros n. rewrite <- in_rev, <- (tk_keys Htk). split; apply Permutation_in; [exact HP|now symmetry]. }
  exists (rev (map tm_name l)), (map tm_name l1), (map tm_name l2). rewrite <- map_app, <- Hl, map_rev.
  split; [reflexivity|]. split; [now apply NoDup_rev|]. split; [exact Hdel|]. split; [|split; [exact Htr|split; [exact Hrep|intros Hr; now rewrite (Hok Hr)]]].
  intros a b Hr Ha Hb'. apply before_rev'. apply Hb. apply (tracked_edge _ _ Htk). split; [exact Hr|]. rewrite <- in_rev in Ha, Hb'.
  split; (eapply Permutation_in; [exact HP|]); assumption.
Qed.
End Create.
