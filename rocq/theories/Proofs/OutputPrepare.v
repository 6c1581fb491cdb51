From Coq Require Import Lia Relations.
From Verif Require Import Model.Base Model.Value Model.Names Model.PlanModel Model.Metadata Model.Filters Model.Multiply Model.Materialize Model.Dest Model.Output Model.Sampler.
From Verif Require Import Spec.GraphSpec Spec.SchemaSpec Spec.PlannerSpec Spec.FilterSpec Spec.OutputSpec Spec.RunSpec.
From Verif Require Import Proofs.BaseFacts Proofs.NameFacts Proofs.MetadataFacts Proofs.PlanRun Proofs.OutputRows Proofs.OutputDb Proofs.OutputCreate Proofs.OutputRun Proofs.OutputCopy Proofs.OutputSample Proofs.OutputMain
  Proofs.OutputMerge.
Set Implicit Arguments.
Unset Strict Implicit.
Open Scope list_scope.

Lemma forM_each {X S A} (f : S -> A -> res X S) : forall l s s', forM f l s = Ok s' -> forall x, In x l -> exists s1 s2, f s1 x = Ok s2.
Proof.
  induction l as [|a l IH]; intros s s' H x Hx; [destruct Hx|]. cbn [forM] in H. apply bind_Ok in H. destruct H as (s1 & H1 & H).
  destruct Hx as [->|Hx]; [eauto|exact (IH _ _ H x Hx)].
Qed.
Lemma mapM_total {X A B} (f : A -> res X B) : forall l, (forall x, In x l -> exists y, f x = Ok y) -> exists l', mapM f l = Ok l'.
Proof.
  induction l as [|a l IH]; intros H; [exists []; reflexivity|]. destruct (H a (or_introl eq_refl)) as (y & Hy).
  destruct (IH (fun x Hx => H x (or_intror Hx))) as (l' & Hl). exists (y :: l'). apply mapM_Ok. constructor; [exact Hy|]. apply mapM_Ok. exact Hl.
Qed.
Lemma remap_planned resub c qs rm t : table_remap resub c qs = Ok rm -> In t qs -> exists n n', named t n /\ goes_to resub (oc_remap c) n n'.
Proof.
  intros H Ht. unfold table_remap in H. destruct (remap_loop H) as (_ & _ & _ & Hall); [constructor|].
  destruct (Hall t Ht) as (k & (n & n' & Hn & Hg & _) & _). eauto.
Qed.
Lemma named_parse s n : named s n -> parse_name s = Ok n.
Proof. intros H. unfold parse_name. now rewrite (proj2 (parse_named s n) H). Qed.

(** prepare() when every single-column foreign key stays inside the metadata. *)
Section PrepareTotal.
Variable resub : string -> string -> string -> string.
Variable is_int : tname -> string -> bool.
Variable c : db_config.
Variable d : dest.
Variable o : db_output.
Variables passthrough queries : list string.
Variable smeta : meta.
Hypothesis Hlands : forall t, In t queries -> ~ In t passthrough -> exists n n', named t n /\ goes_to resub (oc_remap c) n n' /\ In n' (dkeys (ou_meta o)).
Hypothesis Hclosed : forall t n, In t queries -> ~ In t passthrough -> named t n -> exists m, dget smeta n = Some m /\
  forall fk k, In fk (tm_fks m) -> fk_cols fk = [k] -> In (fk_dst fk) (dkeys smeta).

Lemma goes_remap n n' : goes_to resub (oc_remap c) n n' -> remap_table resub c n = Ok n'.
Proof. intros H. apply remap_goes. exact H. Qed.

Lemma merge_keys_total l : incl l queries -> forall offs0 maxes0 s, s = (offs0, maxes0) -> exists offs maxes,
  forM (fun acc table =>
      let '(offs, maxes) := acc in
      if memb table (set_of passthrough) then Ok acc
      else
        let* n := parse_name table in
        let* n' := remap_table resub c n in
        let offs := dset offs n' [] in
        let* m := find_key (ou_meta o) n' in
        match tb_pk (tm_table m) with
        | [c] =>
            if is_int n' c then
              let mx := max_value (rows_of d n') c in
              Ok (match mx with Some v => dset offs n' (dset [] c (v + 1)%Z) | None => offs end, dset maxes table mx)
            else Ok (offs, maxes)
        | _ => Ok (offs, maxes)
        end) l s = Ok (offs, maxes) /\
  (forall n', In n' (dkeys offs0) -> In n' (dkeys offs)) /\
  (forall t n n', In t l -> ~ In t passthrough -> named t n -> goes_to resub (oc_remap c) n n' -> In n' (dkeys offs)).
Proof.
  induction l as [|t l IH]; intros Hincl offs0 maxes0 s ->; cbn [forM].
  { exists offs0, maxes0. split; [reflexivity|]. split; [tauto|]. intros t n n' []. }
  assert (Hl : incl l queries) by (intros x Hx; apply Hincl; now right).
  destruct (memb t (set_of passthrough)) eqn:Em.
  - cbn [bind]. destruct (IH Hl offs0 maxes0 _ eq_refl) as (offs & maxes & A & B & C). exists offs, maxes. split; [exact A|]. split; [exact B|].
    intros t' n n' [->|Hin] Hp; [|exact (C t' n n' Hin Hp)]. exfalso. apply Hp. apply (proj1 (set_of_In _ _)). now apply memb_true.
  - assert (Hp : ~ In t passthrough) by (intros F; apply (memb_false _ _) in Em; apply Em; now apply set_of_In).
    destruct (Hlands (Hincl t (or_introl eq_refl)) Hp) as (n & n' & Hn & Hg & Hk).
    rewrite (named_parse Hn). cbn [bind]. rewrite (goes_remap Hg). cbn [bind]. destruct (key_dget Hk) as (m & Hm). unfold find_key, dfind. rewrite Hm. cbn [bind].
    pose (Hconcl := fun (offs1 : dict tname (dict string Z)) (maxes1 : dict string (option Z)) =>
       exists offs maxes, forM (fun acc table =>
      let '(offs, maxes) := acc in
      if memb table (set_of passthrough) then Ok acc
      else
        let* n := parse_name table in
        let* n' := remap_table resub c n in
        let offs := dset offs n' [] in
        let* m := find_key (ou_meta o) n' in
        match tb_pk (tm_table m) with
        | [c] =>
            if is_int n' c then
              let mx := max_value (rows_of d n') c in
              Ok (match mx with Some v => dset offs n' (dset [] c (v + 1)%Z) | None => offs end, dset maxes table mx)
            else Ok (offs, maxes)
        | _ => Ok (offs, maxes)
        end) l (offs1, maxes1) = Ok (offs, maxes) /\
        (forall x, In x (dkeys offs0) -> In x (dkeys offs)) /\
        (forall t' n2 n2', In t' (t :: l) -> ~ In t' passthrough -> named t' n2 -> goes_to resub (oc_remap c) n2 n2' -> In n2' (dkeys offs))).
    assert (Hstep : forall offs1 maxes1, In n' (dkeys offs1) -> (forall x, In x (dkeys offs0) -> In x (dkeys offs1)) -> Hconcl offs1 maxes1).
    { intros offs1 maxes1 Hin1 Hsub. destruct (IH Hl offs1 maxes1 _ eq_refl) as (offs & maxes & A & B & C). exists offs, maxes. split; [exact A|].
      split; [intros x Hx; apply B; now apply Hsub|]. intros t' n2 n2' [->|Hin] Hp' Hn2 Hg2; [|exact (C t' n2 n2' Hin Hp' Hn2 Hg2)].
      rewrite (named_fun Hn2 Hn) in Hg2. rewrite (goes_fun Hg2 Hg). apply B. exact Hin1. }
    assert (H1 : forall v, In n' (dkeys (dset offs0 n' v)) /\ forall x, In x (dkeys offs0) -> In x (dkeys (dset offs0 n' v))).
    { intros v. split; [apply dset_In_key; now left|]. intros x Hx. apply dset_In_key. now right. }
    assert (H2 : forall v v', In n' (dkeys (dset (dset offs0 n' v) n' v')) /\ forall x, In x (dkeys offs0) -> In x (dkeys (dset (dset offs0 n' v) n' v'))).
    { intros v v'. split; [apply dset_In_key; now left|]. intros x Hx. apply dset_In_key. right. now apply H1. }
    assert (H3 : forall v mx, Hconcl (dset offs0 n' v) mx) by (intros v mx; exact (Hstep _ mx (proj1 (H1 v)) (proj2 (H1 v)))).
    assert (H4 : forall v v' mx, Hconcl (dset (dset offs0 n' v) n' v') mx) by (intros v v' mx; exact (Hstep _ mx (proj1 (H2 v v')) (proj2 (H2 v v')))).
    destruct (tb_pk (tm_table m)) as [|k [|k2 ks]]; [apply H3| |apply H3].
    destruct (is_int n' k); [|apply H3]. destruct (max_value (rows_of d n') k); cbn [bind]; [apply H4|apply H3].
Qed.

Lemma fk_loop_total maxes n n' : goes_to resub (oc_remap c) n n' -> forall fks offs, In n' (dkeys offs) ->
  (forall fk k, In fk fks -> fk_cols fk = [k] -> In (fk_dst fk) (dkeys smeta)) ->
  exists offs', forM (fk_step resub c smeta maxes n) fks offs = Ok offs' /\ forall x, In x (dkeys offs) -> In x (dkeys offs').
Proof.
  intros Hg. induction fks as [|fk fks IH]; intros offs Hin Hfk; cbn [forM]; [exists offs; tauto|].
  assert (Hstep : exists offs1, fk_step resub c smeta maxes n offs fk = Ok offs1 /\ forall x, In x (dkeys offs) -> In x (dkeys offs1)).
  { unfold fk_step. destruct (fk_cols fk) as [|k [|k2 ks]] eqn:Ek; [exists offs; tauto| |exists offs; tauto].
    destruct (key_dget (Hfk fk k (or_introl eq_refl) Ek)) as (dm & Hd). unfold find_key, dfind. rewrite Hd. cbn [bind].
    destruct (eqb (fk_dst_cols fk) (tb_pk (tm_table dm))); [|exists offs; tauto].
    destruct (dget_or maxes (render (fk_dst fk)) None) as [v|]; [|exists offs; tauto].
    rewrite (goes_remap Hg). cbn [bind]. destruct (key_dget Hin) as (cur & Hc). rewrite Hc. cbn [bind]. eexists. split; [reflexivity|].
    intros x Hx. apply dset_In_key. now right. }
  destruct Hstep as (offs1 & E1 & Hs1). rewrite E1. cbn [bind]. destruct (IH offs1 (Hs1 _ Hin)) as (offs' & A & B); [intros fk' k Hf; apply Hfk; now right|].
  exists offs'. split; [exact A|]. intros x Hx. now apply B, Hs1.
Qed.

Lemma refs_loop_total maxes : forall l offs, incl l queries ->
  (forall t n n', In t l -> ~ In t passthrough -> named t n -> goes_to resub (oc_remap c) n n' -> In n' (dkeys offs)) ->
  exists offs', forM (refs_step resub c passthrough smeta maxes) l offs = Ok offs'.
Proof.
  induction l as [|t l IH]; intros offs Hincl Hoff; cbn [forM]; [eauto|].
  assert (Hl : incl l queries) by (intros x Hx; apply Hincl; now right).
  unfold refs_step at 1. destruct (memb t (set_of passthrough)) eqn:Em; [cbn [bind]; apply IH; [exact Hl|intros t' n n' Hin; apply Hoff; now right]|].
  assert (Hp : ~ In t passthrough) by (intros F; apply (memb_false _ _) in Em; apply Em; now apply set_of_In).
  destruct (Hlands (Hincl t (or_introl eq_refl)) Hp) as (n & n' & Hn & Hg & _). destruct (Hclosed (Hincl t (or_introl eq_refl)) Hp Hn) as (m & Hm & Hfk).
  rewrite (named_parse Hn). cbn [bind]. unfold find_key, dfind. rewrite Hm. cbn [bind].
  destruct (@fk_loop_total maxes n n' Hg (tm_fks m) offs) as (offs1 & E1 & Hs1).
  - exact (Hoff t n n' (or_introl eq_refl) Hp Hn Hg).
  - exact Hfk.
  - rewrite E1. cbn [bind]. apply IH; [exact Hl|]. intros t' n2 n2' Hin Hp' Hn2 Hg2. apply Hs1. exact (Hoff t' n2 n2' (or_intror Hin) Hp' Hn2 Hg2).
Qed.

Theorem prepare_total : exists o', db_prepare resub is_int c d o smeta passthrough queries = Ok o'.
Proof.
  unfold db_prepare. destruct (oc_merge c); cbn [negb]; [|eauto].
  destruct (@merge_keys_total queries (fun x Hx => Hx) [] [] _ eq_refl) as (offs & maxes & A & _ & C). assert (A' : merge_keys resub is_int c d o passthrough queries = Ok (offs, maxes)) by exact A. rewrite A'. cbn [bind].
  destruct (@refs_loop_total maxes queries offs (fun x Hx => Hx) C) as (offs' & B). assert (B' : merge_references resub c smeta maxes passthrough queries offs = Ok offs') by exact B. rewrite B'. cbn [bind]. eauto.
Qed.
End PrepareTotal.

(** create() when every foreign key of a table to be created stays inside the plan. *)
Section CreateTotal.
Variable resub : string -> string -> string -> string.
Variable dflt : tname -> string -> list row -> row -> value.
Variable accepts : dest -> event -> bool.
Variable c : db_config.
Variable db : list table.
Variable o : db_output.
Variable queries : list string.
Variable smeta : meta.
Notation to := (lands resub (oc_remap c)).
Hypothesis Htk : tracked resub c queries db o.
Hypothesis Hnames : forall n m, dget smeta n = Some m -> tm_name m = n.
(** The columns table [n] of the source has at the destination, once created. *)
Definition columns_at (n : tname) (cols : list string) : Prop :=
  exists n', goes_to resub (oc_remap c) n n' /\
   ((exists tb, table_of db n' tb /\ cols = tb_cols tb) \/
    (~ exists tb, table_of db n' tb) /\ exists sm, dget smeta n = Some sm /\ cols = tb_cols (tm_table sm)).
Definition within (n : tname) (cols : list string) : Prop :=
  In (render n) queries /\ no_dot (fst n) /\ forall all, columns_at n all -> incl cols all.
Hypothesis Hclosed : forall t n n', In t queries -> named t n -> goes_to resub (oc_remap c) n n' -> (~ exists tb, table_of db n' tb) ->
  exists sm, dget smeta n = Some sm /\ (forall u, In u (tb_uniques (tm_table sm)) -> incl u (tb_cols (tm_table sm))) /\
    forall fk, In fk (tb_fks (tm_table sm)) -> incl (fk_cols fk) (tb_cols (tm_table sm)) /\ within (fk_dst fk) (fk_dst_cols fk).

Definition obj_ok (s : string) (t : table) : Prop :=
  exists n, named s n /\ goes_to resub (oc_remap c) n (tb_name t) /\ In s queries /\ columns_at n (tb_cols t).
Definition new_ok (x : string * (table * table)) : Prop :=
  exists n sm, In (fst x) queries /\ named (fst x) n /\ dget smeta n = Some sm /\ snd (snd x) = tm_table sm /\ goes_to resub (oc_remap c) n (tb_name (fst (snd x))) /\
    ~ exists tb, table_of db (tb_name (fst (snd x))) tb.

Lemma present_key n' : target resub (oc_remap c) queries n' -> (exists tb, table_of db n' tb) -> In n' (dkeys (ou_meta o)).
Proof. intros Ht Hx. apply (tk_keys Htk). exists n'. split; [exact Ht|]. split; [exact Hx|apply rt_refl]. Qed.

Lemma new_tables_total : exists objs created, new_tables o smeta = Ok (objs, created) /\
  (forall s t, dget objs s = Some t -> obj_ok s t) /\ (forall s, In s queries -> exists t, dget objs s = Some t) /\ Forall new_ok created.
Proof.
  destruct (remap_spec (tk_remap Htk)) as (Hrn & Hrd).
  assert (Hl : forall l, incl l (ou_remap o) -> forall objs0 cr0,
    (forall s t, dget objs0 s = Some t -> obj_ok s t) -> Forall new_ok cr0 ->
    exists objs cr, forM (fun acc rt =>
      let '(objs, created) := acc in
      let* n' := parse_name (fst rt) in
      match dget (ou_meta o) n' with
      | Some m => Ok (dset objs (snd rt) (tm_table m), created)
      | None =>
          let* n := parse_name (snd rt) in
          let* sm := find_key smeta n in
          let st := tm_table sm in
          let t := mkTable n' (tb_cols st) (tb_pk st) [] [] in
          Ok (dset objs (snd rt) t, created ++ [(snd rt, (t, st))])
      end) l (objs0, cr0) = Ok (objs, cr) /\ (forall s t, dget objs s = Some t -> obj_ok s t) /\ Forall new_ok cr /\
      (forall s, In s (dkeys objs0) -> In s (dkeys objs)) /\ (forall k s, In (k, s) l -> In s (dkeys objs))).
  { induction l as [|[k s] l IH]; intros Hincl objs0 cr0 H0 H1; cbn [forM fst snd].
    { exists objs0, cr0. split; [reflexivity|]. split; [exact H0|]. split; [exact H1|]. split; [tauto|]. intros k s []. }
    assert (Hincl' : incl l (ou_remap o)) by (intros x Hx; apply Hincl; now right).
    assert (Hin : In (k, s) (ou_remap o)) by (apply Hincl; now left). apply (In_dget Hrn) in Hin. apply Hrd in Hin. destruct Hin as (Hs & n & n' & Hn & Hg & ->).
    rewrite (named_parse (named_render (goes_dot Hg))). cbn [bind].
    assert (Hnext : forall t cr1, obj_ok s t -> Forall new_ok cr1 -> exists objs cr, forM (fun acc rt =>
      let '(objs, created) := acc in
      let* n' := parse_name (fst rt) in
      match dget (ou_meta o) n' with
      | Some m => Ok (dset objs (snd rt) (tm_table m), created)
      | None =>
          let* n := parse_name (snd rt) in
          let* sm := find_key smeta n in
          let st := tm_table sm in
          let t := mkTable n' (tb_cols st) (tb_pk st) [] [] in
          Ok (dset objs (snd rt) t, created ++ [(snd rt, (t, st))])
      end) l (dset objs0 s t, cr1) = Ok (objs, cr) /\ (forall s t, dget objs s = Some t -> obj_ok s t) /\ Forall new_ok cr /\
      (forall s, In s (dkeys objs0) -> In s (dkeys objs)) /\ (forall k s', In (k, s') ((render n', s) :: l) -> In s' (dkeys objs))).
    { intros t cr1 Ho Hc. destruct (IH Hincl' (dset objs0 s t) cr1) as (objs & cr & A & B & C & D & F).
      - intros s' t' Hd. destruct (eq_dec s s') as [Es|Hne]; [subst s'; rewrite dget_dset_eq in Hd; injection Hd as <-; exact Ho|].
        rewrite dget_dset_ne in Hd by congruence. exact (H0 s' t' Hd).
      - exact Hc.
      - exists objs, cr. split; [exact A|]. split; [exact B|]. split; [exact C|]. split; [intros x Hx; apply D; apply dset_In_key; now right|].
        intros k' s' [He|Hx]; [injection He as _ <-; apply D; apply dset_In_key; now left|exact (F k' s' Hx)]. }
    destruct (dget (ou_meta o) n') as [m|] eqn:Em.
    - cbn [bind]. apply Hnext; [|exact H1]. pose proof (dget_In Em) as Hi. destruct (tk_tables Htk Hi) as [Htb _].
      exists n. split; [exact Hn|]. destruct Htb as (Hin2 & Hnm). rewrite Hnm. split; [exact Hg|]. split; [exact Hs|].
      exists n'. split; [exact Hg|]. left. exists (tm_table m). split; [split; assumption|reflexivity].
    - assert (Habs : ~ exists tb, table_of db n' tb).
      { intros Hx. assert (Hk : In n' (dkeys (ou_meta o))) by (apply present_key; [exists s, n; tauto|exact Hx]). apply dget_None in Em. contradiction. }
      destruct (Hclosed Hs Hn Hg Habs) as (sm & Hsm & _). rewrite (named_parse Hn). cbn [bind]. unfold find_key, dfind. rewrite Hsm. cbn [bind].
      apply Hnext.
      + exists n. cbn [tb_name tb_cols]. split; [exact Hn|]. split; [exact Hg|]. split; [exact Hs|]. exists n'. split; [exact Hg|]. right. split; [exact Habs|]. eauto.
      + apply Forall_app. split; [exact H1|]. constructor; [|constructor]. exists n, sm. cbn [fst snd tb_name]. tauto. }
  destruct (Hl (ou_remap o) (fun x Hx => Hx) [] []) as (objs & cr & A & B & C & _ & D); [intros s t F; discriminate|constructor|].
  exists objs, cr. split; [exact A|]. split; [exact B|]. split; [|exact C]. intros s Hs.
  destruct (remap_planned (tk_remap Htk) Hs) as (n & n' & Hn & Hg). apply key_dget. apply (D (render n')). apply dget_In. apply Hrd. split; [exact Hs|]. exists n, n'. tauto.
Qed.

Theorem create_total w : exists w' r, db_create dflt accepts o smeta w = (w', r) /\
  ((exists o', r = Ok o') \/ r = Err OxDbError).
Proof.
  destruct new_tables_total as (objs & created & A & Hobj & Hdom & Hnew). unfold db_create.
  assert (Hrc : forall n cols, In (render n) queries -> no_dot (fst n) -> (forall all, columns_at n all -> incl cols all) -> exists d, remap_cols objs n cols = Ok d).
  { intros n cols Hq Hdot Hc. destruct (Hdom _ Hq) as (t & Ht). destruct (Hobj _ _ Ht) as (n0 & Hn0 & _ & _ & Hcol).
    rewrite (named_fun Hn0 (named_render Hdot)) in Hcol. unfold remap_cols, find_key, dfind. rewrite Ht. cbn [bind].
    rewrite (proj2 (subsetb_true _ _)); [eauto|]. exact (Hc _ Hcol). }
  assert (Hts : exists ts, mapM (fun nt => copy_constraints objs (fst (snd nt)) (snd (snd nt))) created = Ok ts).
  { apply mapM_total. intros [s [t st]] Hin. rewrite Forall_forall in Hnew. destruct (Hnew _ Hin) as (n & sm & Hs & Hn & Hd & -> & Hg & Habs). cbn [fst snd] in *.
    destruct (Hclosed Hs Hn Hg Habs) as (sm' & Hd' & Hu & Hf). rewrite Hd in Hd'. injection Hd' as <-. pose proof (Hnames Hd) as Hnm. unfold tm_name in Hnm.
    assert (Hown : forall cols, incl cols (tb_cols (tm_table sm)) -> exists d, remap_cols objs (tb_name (tm_table sm)) cols = Ok d).
    { intros cols Hc. rewrite Hnm. apply Hrc; [rewrite <- (named_eq Hn); exact Hs|exact (proj2 Hn)|].
      intros all (n2 & Hg2 & [(tb & Ht & _)|(_ & sm2 & Hd2 & ->)]); [|rewrite Hd in Hd2; injection Hd2 as <-; exact Hc].
      exfalso. apply Habs. rewrite (goes_fun Hg Hg2). eauto. }
    unfold copy_constraints.
    destruct (mapM_total (f := fun u => let* _ := remap_cols objs (tb_name (tm_table sm)) u in Ok u) (l := tb_uniques (tm_table sm))) as (us & Eu).
    { intros u Hui. destruct (Hown u (Hu u Hui)) as (d & Ed). exists u. rewrite Ed. reflexivity. }
    rewrite Eu. cbn [bind].
    destruct (mapM_total (f := fun fk => let* d := remap_cols objs (fk_dst fk) (fk_dst_cols fk) in let* _ := remap_cols objs (tb_name (tm_table sm)) (fk_cols fk) in
       Ok (mkFK (fk_cols fk) d (fk_dst_cols fk))) (l := tb_fks (tm_table sm))) as (fks & Ef).
    { intros fk Hfi. destruct (Hf fk Hfi) as (Hc & Hq & Hdot & Hall). destruct (Hrc (fk_dst fk) (fk_dst_cols fk) Hq Hdot Hall) as (d & Ed).
      destruct (Hown _ Hc) as (d2 & Ed2). rewrite Ed. cbn [bind]. rewrite Ed2. cbn [bind]. eauto. }
    rewrite Ef. cbn [bind]. eauto. }
  destruct Hts as (ts & Hts). unfold bind_io, lift. rewrite A. cbn [fst snd]. rewrite Hts. destruct (is_nil ts); [eexists _, _; split; [reflexivity|left; eexists; reflexivity]|].
  unfold send. destruct (accepts (w_dest w) (EvCreate ts)); [|eexists _, _; split; [reflexivity|now right]].
  destruct (exec dflt (w_dest w) (EvCreate ts)); eexists _, _; (split; [reflexivity|]); [left; eexists; reflexivity|now right].
Qed.
End CreateTotal.

Section Prepare.
Context {G : Type}.
Variable E : env G.
Variable cfg : sampler_config.
Variable p : plan.
Variable c : db_config.
Variable w : world.
Notation queries := (dkeys (p_queries p)).
Notation db := (ds_tables (w_dest w)).
Hypothesis Hok : run_ok E cfg c p (w_dest w).

(** The rows of a run that needs a foreign key out of the plan. *)
Theorem merge_outside truncate create g w' r t n fk k : sample E cfg p truncate create g w = (w', r) -> trace w = [] -> oc_merge c = true ->
  In t queries -> ~ In t (p_passthrough p) -> named t n -> source_fk E cfg p n fk -> fk_cols fk = [k] ->
  ~ matching (en_fnm E) (en_source_schema E) queries (fk_dst fk) ->
  (exists e, r = Err e) /\ (forall e, In e (trace w') -> preparing e).
Proof.
  intros Hs Htr Hm Ht Hpt Hn (ms0 & m & Hsm & Hd & Hfk) Hk Hno.
  destruct (phases Hok Hs) as [[He ->]|(ms & mults & ts & o1 & w1 & tc & (Ems & _) & _ & _ & _ & Htc & Etc & _ & _ & _ & HP)].
  { split; [exact He|]. rewrite Htr. intros e []. }
  assert (Hpre1 : forall e, In e (trace w1) -> preparing e).
  { rewrite Etc, Htr. cbn [app]. intros e Hin. destruct Htc as [[-> _]| ->]; [destruct Hin|]. destruct Hin as [<-|[]]. exact I. }
  destruct HP as [[He ->]|(order & _ & [[He ->]|(del & l1 & l2 & w2 & _ & _ & Ew2 & _ & HP)])]; [split; assumption|split; assumption|].
  assert (Hpre2 : forall e, In e (trace w2) -> preparing e).
  { rewrite Ew2. intros e Hin. apply in_app_iff in Hin. destruct Hin as [Hin|Hin]; [exact (Hpre1 e Hin)|].
    apply in_map_iff in Hin. destruct Hin as (x & <- & _). exact I. }
  destruct HP as [[He ->]|(_ & o2 & compact & st & l & g' & tw & Hp & _)]; [split; assumption|].
  exfalso. rewrite Hsm in Ems. injection Ems as ->. unfold db_prepare in Hp. rewrite Hm in Hp. cbn [negb] in Hp.
  apply bind_Ok in Hp. destruct Hp as ([offs maxes] & _ & Hp). apply bind_Ok in Hp. destruct Hp as (offs' & Hr & _).
  unfold merge_references in Hr. destruct (forM_each Hr Ht) as (s1 & s2 & Hx). cbn beta in Hx.
  assert (Hmt : memb t (set_of (p_passthrough p)) = false) by (apply memb_false; rewrite set_of_In; exact Hpt). rewrite Hmt in Hx.
  rewrite (named_parse Hn) in Hx. cbn [bind] in Hx.
  apply bind_Ok in Hx. destruct Hx as (m' & Hd' & Hx). unfold find_key in Hd'. apply dfind_Ok in Hd'. rewrite Hd in Hd'. injection Hd' as <-.
  destruct (forM_each Hx Hfk) as (s3 & s4 & Hy). cbn beta in Hy. rewrite Hk in Hy. apply bind_Ok in Hy. destruct Hy as (dm & Hdm & _).
  unfold find_key in Hdm. apply dfind_Ok in Hdm. apply Hno.
  destruct (sampler_meta_spec (en_fnm E) (p_queries p) (sc_infer cfg) (ro_source Hok)) as (ms' & E' & _ & _ & Hmk). rewrite Hsm in E'. injection E' as <-.
  apply (proj1 (Hmk _)). exact (dget_Some_key Hdm).
Qed.

(** A table to be created with a foreign key out of the plan. *)
Theorem create_outside truncate g w' r t n n' tb fk : sample E cfg p truncate true g w = (w', r) ->
  In t queries -> named t n -> goes_to (en_resub E) (oc_remap c) n n' -> (~ exists x, table_of db n' x) ->
  table_of (en_source_schema E) n tb -> In fk (tb_fks tb) -> ~ In (render (fk_dst fk)) queries ->
  (exists e, r = Err e) /\ w' = w.
Proof.
  intros Hs Ht Hn Hg Habs Htb Hfk Hno.
  destruct (sample_db_inv (ro_output Hok) Hs) as [H|(ms & mults & o & w1 & o1 & Ems & _ & _ & Hinit & Hcr & _)]; [exact H|].
  exfalso. pose proof (init_tracked (ro_dest Hok) (ro_plain Hok) Hinit) as Htk.
  destruct (sampler_meta_spec (en_fnm E) (p_queries p) (sc_infer cfg) (ro_source Hok)) as (ms' & E' & Hmok & Htab & Hmk). rewrite Ems in E'. injection E' as <-.
  unfold db_create in Hcr. apply bind_io_inv in Hcr. destruct Hcr as [(w2 & [objs created] & H1 & H)|(e & _ & F)]; [|discriminate].
  apply lift_inv in H1. destruct H1 as [-> Hnew]. apply bind_io_inv in H. destruct H as [(w2 & ts & H1 & _)|(e & _ & F)]; [|discriminate].
  apply lift_inv in H1. destruct H1 as [-> Hts].
  unfold new_tables in Hnew. apply (new_tables_loop (en_resub E) (rm := ou_remap o) (tk_meta Htk)) in Hnew; [|intros x Hx; exact Hx].
  destruct Hnew as (new & -> & Hnames & Hcrd & Hobjs). cbn [app] in Hts.
  destruct (remap_spec (tk_remap Htk)) as (Hrn & Hrd).
  assert (Hin : In (render n', t) (ou_remap o)). { apply dget_In. apply Hrd. split; [exact Ht|]. exists n, n'. tauto. }
  assert (Htg : target (en_resub E) (oc_remap c) queries n') by (exists t, n; tauto).
  assert (Hab : In n' (absent (ou_meta o) (ou_remap o))).
  { apply (proj2 (absent_In (en_resub E) _ _ _)). split; [exact (goes_dot Hg)|]. split; [apply in_map_iff; exists (render n', t); tauto|].
    apply (proj2 (absent_iff Htk Htg)). exact Habs. }
  rewrite <- Hnames in Hab. apply in_map_iff in Hab. destruct Hab as ([s [t0 st]] & En & Hinew). cbn [fst snd] in En.
  destruct (Hcrd _ _ _ Hinew) as (n2 & sm & Hn2 & Hd2 & -> & Hin2 & _ & _). rewrite En in Hin2.
  apply (In_dget Hrn) in Hin. apply (In_dget Hrn) in Hin2. rewrite Hin in Hin2. injection Hin2 as <-.
  rewrite (named_fun Hn2 Hn) in Hd2. apply dget_In in Hd2. pose proof (Htab _ _ Hd2) as Htm.
  assert (tm_table sm = tb) by (exact (MetadataFacts.table_of_fun (ro_source Hok) Htm Htb)). subst tb.
  assert (HF : Forall2 (fun x t => copy_constraints objs (fst (snd x)) (snd (snd x)) = Ok t) new ts) by (apply mapM_Ok; exact Hts).
  destruct (Forall2_In_l HF Hinew) as (t' & _ & Hc). cbn [fst snd] in Hc. unfold copy_constraints in Hc.
  apply bind_Ok in Hc. destruct Hc as (us & _ & Hc). apply bind_Ok in Hc. destruct Hc as (fks & Hfks & _). apply mapM_Ok in Hfks.
  destruct (Forall2_In_l Hfks Hfk) as (fk' & _ & Hx). apply bind_Ok in Hx. destruct Hx as (d & Hd & _).
  unfold remap_cols, find_key in Hd. apply bind_Ok in Hd. destruct Hd as (tt0 & Hd & _). apply dfind_Ok in Hd.
  destruct (Hobjs _ _ Hd) as [F|[Hx _]]; [discriminate|]. apply (In_dget Hrn) in Hx. apply Hrd in Hx. exact (Hno (proj1 Hx)).
Qed.
End Prepare.

(** C54 *)
Lemma lands_maps resub c t k : OutputDb.maps resub c t k <-> exists n', lands resub (oc_remap c) t n' /\ k = render n'.
Proof. split; [intros (n & n' & H1 & H2 & H3); exists n'; split; [exists n; auto|exact H3]|intros (n' & (n & H1 & H2) & H3); exists n, n'; auto]. Qed.
Theorem remap_exact : forall resub c queries, let to := lands resub (oc_remap c) in
  let distinct := (forall t, In t queries -> exists n', to t n') /\ (forall t t' n', In t queries -> In t' queries -> to t n' -> to t' n' -> t = t') in
  match table_remap resub c queries with
  | Ok rm => distinct /\ forall k t, dget rm k = Some t <-> In t queries /\ exists n', to t n' /\ k = render n'
  | Err e => e = OxValueError /\ ~ distinct
  end.
Proof.
  intros resub c queries to distinct. destruct (table_remap resub c queries) as [rm|e] eqn:Er.
  - destruct (remap_spec Er) as [Hnd Hrm]. assert (Hall : forall k t, dget rm k = Some t <-> In t queries /\ exists n', to t n' /\ k = render n').
    { intros k t. rewrite Hrm, lands_maps. reflexivity. }
    split; [|exact Hall]. split.
    + intros t Ht. unfold table_remap in Er. destruct (@remap_loop resub c queries [] rm Er) as (_ & _ & _ & Hk); [constructor|].
      destruct (Hk t Ht) as (k & Hk1 & _). apply (proj1 (lands_maps _ _ _ _)) in Hk1. destruct Hk1 as (n' & Hn' & _). exists n'. exact Hn'.
    + intros t t' n' Ht Ht' H1 H2. assert (E1 : dget rm (render n') = Some t) by (apply Hall; split; [exact Ht|exists n'; auto]).
      assert (E2 : dget rm (render n') = Some t') by (apply Hall; split; [exact Ht'|exists n'; auto]). congruence.
  - split; [exact (remap_Err Er)|]. intros [H1 H2]. destruct (@remap_total resub c queries) as (rm & Hrm).
    + intros t Ht. destruct (H1 t Ht) as (n' & Hn'). exists (render n'). apply lands_maps. exists n'. auto.
    + intros t t' k Ht Ht' Hk Hk'. apply (proj1 (lands_maps _ _ _ _)) in Hk. apply (proj1 (lands_maps _ _ _ _)) in Hk'. destruct Hk as (n1 & Hn1 & E1), Hk' as (n2 & Hn2 & E2).
      assert (n1 = n2) as ->; [|exact (H2 t t' n2 Ht Ht' Hn1 Hn2)].
      apply render_inj; [| |congruence]; [destruct Hn1 as (? & _ & Hx)|destruct Hn2 as (? & _ & Hx)]; exact (proj2 Hx).
    + congruence.
Qed.
