(** The destination's tables: remapping, order of insertion and truncation, creation. *)
From Coq Require Import Lia.
From Verif Require Import Model.Base Model.Value Model.Names Model.Solver Model.Metadata Model.Filters Model.Dest Model.Output.
From Verif Require Import Spec.GraphSpec Spec.SchemaSpec Spec.OutputSpec.
From Verif Require Import Proofs.BaseFacts Proofs.GraphFacts Proofs.NameFacts Proofs.SolverMain Proofs.MetadataFacts Proofs.OutputRows.
Set Implicit Arguments. Unset Strict Implicit.
Open Scope list_scope.

Lemma before_map' {A B} (f : A -> B) l x y : before l x y -> before (map f l) (f x) (f y).
Proof. intros (l1 & l2 & l3 & ->). exists (map f l1), (map f l2), (map f l3). rewrite map_app. cbn [map]. rewrite map_app. reflexivity. Qed.
Lemma before_rev' {A} (l : list A) x y : before l x y -> before (rev l) y x.
Proof.
  intros (l1 & l2 & l3 & ->). exists (rev l3), (rev l2), (rev l1). rewrite rev_app_distr. cbn [rev]. rewrite rev_app_distr. cbn [rev].
  rewrite <- !app_assoc. reflexivity.
Qed.

Lemma NoDup_map_same {A B} (f : A -> B) l x y : NoDup (map f l) -> In x l -> In y l -> f x = f y -> x = y.
Proof.
  induction l as [|a l IH]; cbn [map In]; [tauto|]. intros Hn Hx Hy He. apply NoDup_cons_iff in Hn. destruct Hn as [Ha Hn].
  destruct Hx as [->|Hx], Hy as [->|Hy]; [reflexivity| | |now apply IH]; exfalso; apply Ha; [rewrite He|rewrite <- He]; now apply in_map.
Qed.

(** ** Topological order of the destination *)
Definition fk_edge (ms : meta) (a b : tname) : Prop :=
  exists m fk, In (a, m) ms /\ In fk (tm_fks m) /\ fk_dst fk = b /\ In b (dkeys ms).

Section Topo.
Variable ord : list string -> list string.
Hypothesis Hord : any_order ord.
Variable ms : meta.
Hypothesis Hms : meta_ok ms.
Hypothesis Hnames : names_ok ms.

Lemma fk_edge_names a b : fk_edge ms a b -> no_dot (fst a) /\ no_dot (fst b).
Proof. intros (m & fk & Hm & Hfk & Hd & Hb). split; apply Hnames; [|exact Hb]. apply in_map_iff. exists (a, m). tauto. Qed.

Lemma graph_fk_edge u v : edge (as_graph ms []) u v <-> exists a b, u = render a /\ v = render b /\ fk_edge ms a b.
Proof.
  rewrite (as_graph_edge [] u v Hms Hnames). split.
  - intros (n & m & fk & -> & -> & Hm & Hfk & _ & _ & Hk). exists n, (fk_dst fk). split; [reflexivity|]. split; [reflexivity|].
    exists m, fk. tauto.
  - intros (a & b & -> & -> & m & fk & Hm & Hfk & Hd & Hk). subst b. exists a, m, fk. cbn [In]. tauto.
Qed.

Lemma graph_cycle : (exists u, on_cycle (edge (as_graph ms [])) u) <-> exists n, on_cycle (fk_edge ms) n.
Proof.
  assert (H1 : forall u v, path (edge (as_graph ms [])) u v -> exists a b, u = render a /\ v = render b /\ no_dot (fst a) /\ no_dot (fst b) /\ path (fk_edge ms) a b).
  { intros u v Hp. induction Hp as [u v He|u v z H1 IH1 H2 IH2].
    - apply graph_fk_edge in He. destruct He as (a & b & -> & -> & He). destruct (fk_edge_names He). exists a, b. repeat split; try assumption. now apply t_step.
    - destruct IH1 as (a & b & -> & Hv & Ha & Hb & Hp1). destruct IH2 as (b' & c & Hv' & -> & Hb' & Hc & Hp2).
      assert (b' = b) by (apply render_inj; congruence). subst b'. exists a, c. repeat split; try assumption. eapply t_trans; eassumption. }
  split.
  - intros (u & Hu). destruct (H1 _ _ Hu) as (a & b & Ha & Hb & Hda & Hdb & Hp). assert (b = a) by (apply render_inj; congruence). subst b. exists a. exact Hp.
  - intros (n & Hn). exists (render n). unfold on_cycle in Hn |- *.
    assert (H2 : forall a b, path (fk_edge ms) a b -> path (edge (as_graph ms [])) (render a) (render b)); [|exact (H2 _ _ Hn)].
    intros x y Hp. induction Hp as [a b He|a b c _ IH1 _ IH2]; [|eapply t_trans; eassumption].
    apply t_step, graph_fk_edge. exists a, b. split; [reflexivity|]. split; [reflexivity|exact He].
Qed.

Lemma mtopo_lookup q : (forall u, In u q -> node (as_graph ms []) u) ->
  exists l, mapM (fun u => match parse_table_name u with None => Err MtValueError | Some n => dfind MtKeyError ms n end) q = Ok l /\
    map render (map tm_name l) = q /\ (forall m, In m l -> In (tm_name m, m) ms).
Proof.
  induction q as [|u q IH]; intros Hq; [exists []; split; [reflexivity|]; split; [reflexivity|intros ? []]|].
  destruct IH as (l & Hl & Hn & Hin); [intros v Hv; apply Hq; now right|].
  destruct (proj1 (as_graph_node [] u Hms Hnames) (Hq u (or_introl eq_refl))) as (n & -> & Hk & _).
  apply key_dget in Hk. destruct Hk as (m & Hm). exists (m :: l). cbn [mapM]. rewrite parse_render; [|apply Hnames; now apply dget_In, in_map with (f := fst) in Hm].
  assert (Hf : dfind MtKeyError ms n = Ok m) by (unfold dfind; now rewrite Hm).
  rewrite Hf. cbn [bind]. rewrite Hl. apply dget_In in Hm. pose proof (proj2 Hms _ _ Hm) as Hnm.
  split; [reflexivity|]. cbn [map]. rewrite Hn, Hnm. split; [reflexivity|]. intros m' [<-|H']; [now rewrite Hnm|now apply Hin].
Qed.

Lemma mtopo_spec l : meta_toposort ord ms = Ok l ->
  Permutation (map tm_name l) (dkeys ms) /\ NoDup (map tm_name l) /\ (forall m, In m l -> In (tm_name m, m) ms) /\
  (forall a b, fk_edge ms a b -> before (map tm_name l) b a).
Proof.
  intros H. unfold meta_toposort in H. destruct (toposort ord (as_graph ms [])) as [q|e] eqn:Et; [|destruct e; discriminate].
  pose proof (as_graph_ok [] Hms Hnames) as Hg.
  destruct (toposort_order ord Hord _ _ Hg Et) as (HP & HN & Hb).
  assert (Hnode : forall u, In u q -> node (as_graph ms []) u) by (intros u Hu; eapply Permutation_in; eassumption).
  destruct (mtopo_lookup Hnode) as (l' & Hl & Hn & Hin). rewrite Hl in H. inv H.
  assert (Hdots : forall n, In n (map tm_name l) -> no_dot (fst n)).
  { intros n Hx. apply in_map_iff in Hx. destruct Hx as (m & <- & Hm). apply Hnames. apply in_map_iff. exists (tm_name m, m). split; [reflexivity|now apply Hin]. }
  assert (HN' : NoDup (map tm_name l)) by (eapply NoDup_map_inv; eassumption).
  assert (Hiff : forall n, In n (map tm_name l) <-> In n (dkeys ms)).
  { intros n. split.
    - intros Hx. apply in_map_iff in Hx. destruct Hx as (m & <- & Hm). apply in_map_iff. exists (tm_name m, m). split; [reflexivity|now apply Hin].
    - intros Hk. assert (Hr : In (render n) (map render (map tm_name l))).
      { eapply Permutation_in; [symmetry; exact HP|]. apply (as_graph_node [] _ Hms Hnames). exists n. cbn. tauto. }
      apply in_map_iff in Hr. destruct Hr as (n' & He & Hn'). replace n with n'; [exact Hn'|]. apply render_inj; [now apply Hdots|now apply Hnames|exact He]. }
  split; [apply NoDup_Permutation; [exact HN'|apply Hms|exact Hiff]|]. split; [exact HN'|]. split; [exact Hin|].
  intros a b He. assert (Hbr : before (map render (map tm_name l)) (render b) (render a)) by (apply Hb, graph_fk_edge; eauto).
  destruct (fk_edge_names He) as [Ha Hdb].
  destruct Hbr as (l1 & l2 & l3 & Hs). revert Hs Hdots. generalize (map tm_name l). intros L Hs Hdots.
  apply map_eq_app in Hs. destruct Hs as (L1 & L' & -> & <- & Hs). apply map_eq_cons in Hs. destruct Hs as (b' & L'' & -> & Hb' & Hs).
  apply map_eq_app in Hs. destruct Hs as (L2 & L3' & -> & <- & Hs). apply map_eq_cons in Hs. destruct Hs as (a' & L3 & -> & Ha' & Hs).
  exists L1, L2, L3. f_equal. rewrite (render_inj (n := b') (n' := b)); [f_equal; f_equal; f_equal|..]; try assumption.
  - apply render_inj; [|exact Ha|exact Ha']. apply Hdots. apply in_or_app. right. right. apply in_or_app. right. now left.
  - apply Hdots. apply in_or_app. right. now left.
Qed.

Lemma mtopo_total : (exists l, meta_toposort ord ms = Ok l) \/ meta_toposort ord ms = Err MtValueError.
Proof.
  pose proof (as_graph_ok [] Hms Hnames) as Hg. unfold meta_toposort.
  destruct (toposort_fails ord Hord _ Hg) as [(q & Eq)|Eq]; rewrite Eq; [left|now right].
  destruct (toposort_order ord Hord _ _ Hg Eq) as (HP & _). destruct (@mtopo_lookup q) as (l & Hl & _); [|eauto].
  intros u Hu. eapply Permutation_in; eassumption.
Qed.

Lemma mtopo_cycle : meta_toposort ord ms = Err MtValueError <-> exists n, on_cycle (fk_edge ms) n.
Proof.
  pose proof (as_graph_ok [] Hms Hnames) as Hg. rewrite <- graph_cycle, <- (toposort_cycle ord Hord _ Hg). unfold meta_toposort.
  destruct (toposort_fails ord Hord _ Hg) as [(q & Eq)|Eq]; rewrite Eq; [|tauto].
  destruct (toposort_order ord Hord _ _ Hg Eq) as (HP & _). destruct (@mtopo_lookup q) as (l & Hl & _); [intros u Hu; eapply Permutation_in; eassumption|].
  rewrite Hl. split; discriminate.
Qed.
End Topo.

(** ** Remapping *)
Section Remap.
Variable resub : string -> string -> string -> string.
Variable cfg : db_config.
Notation rules := (oc_remap cfg).

Definition maps (t k : string) : Prop := exists n n', named t n /\ goes_to resub rules n n' /\ k = render n'.

Lemma goes_fun n a b : goes_to resub rules n a -> goes_to resub rules n b -> a = b.
Proof. unfold goes_to. apply named_fun. Qed.
Lemma goes_dot n a : goes_to resub rules n a -> no_dot (fst a).
Proof. intros [_ H]. exact H. Qed.
Lemma maps_fun t k k' : maps t k -> maps t k' -> k = k'.
Proof.
  intros (n & n' & Hn & Hg & ->) (m & m' & Hm & Hg' & ->). rewrite (named_fun Hm Hn) in Hg'. now rewrite (goes_fun Hg Hg').
Qed.

Definition remap_step (d : dict string string) (table : string) : ores (dict string string) :=
  let* n := parse_name table in
  let* n' := remap_table resub cfg n in
  match dget d (render n') with
  | Some t => if eqb t table then Ok d else Err OxValueError
  | None => Ok (dset d (render n') table)
  end.

Lemma remap_step_Ok d t d' : remap_step d t = Ok d' <->
  exists k, maps t k /\ ((dget d k = Some t /\ d' = d) \/ (dget d k = None /\ d' = dset d k t)).
Proof.
  unfold remap_step, parse_name. split.
  - intros H. destruct (parse_table_name t) as [n|] eqn:Hp; [|discriminate]. cbn [bind] in H. apply parse_named in Hp.
    apply bind_Ok in H. destruct H as (n' & Hn' & H). apply remap_goes in Hn'. exists (render n').
    split; [exists n, n'; tauto|]. destruct (dget d (render n')) as [t'|]; [|inv H; right; split; reflexivity].
    destruct (eqb t' t) eqn:E; [|discriminate]. apply (proj1 (eqb_true _ _)) in E. subst. inv H. left. split; reflexivity.
  - intros (k & (n & n' & Hn & Hg & ->) & H). apply parse_named in Hn. rewrite Hn. cbn [bind]. apply remap_goes in Hg. rewrite Hg. cbn [bind].
    destruct H as [[Hd ->]|[Hd ->]]; rewrite Hd; [now rewrite eqb_refl|reflexivity].
Qed.
Lemma remap_step_Err d t e : remap_step d t = Err e -> e = OxValueError.
Proof.
  unfold remap_step, remap_table, parse_name. destruct (parse_table_name t); cbn [bind]; [|congruence].
  destruct (parse_table_name _) as [n'|]; cbn [bind]; [|congruence].
  destruct (dget d (render n')) as [t'|]; [|congruence]. destruct (eqb t' t); congruence.
Qed.

Lemma remap_loop : forall qs d rm, forM remap_step qs d = Ok rm -> NoDup (dkeys d) ->
  NoDup (dkeys rm) /\
  (forall k t, dget rm k = Some t -> dget d k = Some t \/ (In t qs /\ maps t k)) /\
  (forall k t, dget d k = Some t -> dget rm k = Some t) /\
  (forall t, In t qs -> exists k, maps t k /\ dget rm k = Some t).
Proof.
  induction qs as [|t qs IH]; intros d rm H Hn; cbn [forM] in H.
  - inv H. split; [exact Hn|]. split; [tauto|]. split; [tauto|intros t []].
  - apply bind_Ok in H. destruct H as (d1 & H1 & H). apply remap_step_Ok in H1. destruct H1 as (k & Hk & Hd).
    assert (Hn1 : NoDup (dkeys d1)) by (destruct Hd as [[_ ->]|[_ ->]]; [exact Hn|now apply dset_NoDup]).
    destruct (IH d1 rm H Hn1) as (Hnr & Hback & Hfwd & Hall).
    assert (Hd1 : dget d1 k = Some t) by (destruct Hd as [[Hd ->]|[_ ->]]; [exact Hd|apply dget_dset_eq]).
    split; [exact Hnr|]. split; [|split].
    + intros k0 t0 H0. destruct (Hback k0 t0 H0) as [H1|[H1 H2]]; [|right; cbn; tauto].
      destruct Hd as [[Hd ->]|[Hd ->]]; [tauto|]. destruct (eq_dec k k0) as [->|Hne].
      * rewrite Hd1 in H1. inv H1. right. cbn. tauto.
      * rewrite dget_dset_ne in H1 by congruence. tauto.
    + intros k0 t0 H0. apply Hfwd. destruct Hd as [[Hd ->]|[Hd ->]]; [exact H0|]. rewrite dget_dset_ne; [exact H0|]. congruence.
    + intros t0 [<-|H0]; [exists k; split; [exact Hk|now apply Hfwd]|now apply Hall].
Qed.

Lemma remap_spec qs rm : table_remap resub cfg qs = Ok rm ->
  NoDup (dkeys rm) /\ (forall k t, dget rm k = Some t <-> In t qs /\ maps t k).
Proof.
  intros H. destruct (@remap_loop qs [] rm H) as (Hn & Hback & _ & Hall); [constructor|]. split; [exact Hn|]. intros k t. split.
  - intros Hd. destruct (Hback k t Hd) as [Hx|Hx]; [discriminate|exact Hx].
  - intros [Hin Hm]. destruct (Hall t Hin) as (k' & Hm' & Hd). now rewrite (maps_fun Hm Hm').
Qed.
Lemma remap_Err qs e : table_remap resub cfg qs = Err e -> e = OxValueError.
Proof.
  unfold table_remap. fold remap_step. generalize (@nil (string * string)). induction qs as [|t qs IH]; intros d H; cbn [forM] in H; [discriminate|].
  apply bind_Err in H. destruct H as [H|(d1 & _ & H)]; [eapply remap_step_Err; exact H|eapply IH; exact H].
Qed.
(** It fails exactly if a name has no dot, before or after the rules, or two tables collide. *)
Lemma remap_total qs : (forall t, In t qs -> exists k, maps t k) ->
  (forall t t' k, In t qs -> In t' qs -> maps t k -> maps t' k -> t = t') -> exists rm, table_remap resub cfg qs = Ok rm.
Proof.
  intros Hall Hinj. unfold table_remap. fold remap_step.
  assert (Hg : forall d, (forall k t t', In t qs -> maps t k -> dget d k = Some t' -> t' = t) -> exists rm, forM remap_step qs d = Ok rm).
  { induction qs as [|t l IH]; intros d Hd; cbn [forM]; [eauto|].
    destruct (Hall t (or_introl eq_refl)) as (k & Hk).
    assert (Hs : exists d1, remap_step d t = Ok d1 /\ (d1 = d \/ d1 = dset d k t)).
    { destruct (dget d k) as [t'|] eqn:E.
      - exists d. split; [|tauto]. apply remap_step_Ok. exists k. split; [exact Hk|]. left. rewrite (Hd k t t' (or_introl eq_refl) Hk E) in E. tauto.
      - exists (dset d k t). split; [|tauto]. apply remap_step_Ok. exists k. tauto. }
    destruct Hs as (d1 & H1 & Hd1). rewrite H1. cbn [bind]. apply IH.
    - intros t0 H0. apply Hall. now right.
    - intros t1 t2 k0 Ha Hb. apply Hinj; now right.
    - intros k0 t0 t' Hin Hm Hg. destruct Hd1 as [->| ->]; [apply (Hd k0); [now right|exact Hm|exact Hg]|].
      destruct (eq_dec k k0) as [->|Hne].
      + rewrite dget_dset_eq in Hg. inv Hg. apply (Hinj _ _ k0); [now left|now right|exact Hk|exact Hm].
      + rewrite dget_dset_ne in Hg by congruence. apply (Hd k0); [now right|exact Hm|exact Hg]. }
  apply Hg. intros k t t' _ _ Hx. discriminate.
Qed.
End Remap.

(** ** The tables an output works on *)
Section Tracked.
Variable resub : string -> string -> string -> string.
Variable cfg : db_config.
Variable planned : list string.
Notation rules := (oc_remap cfg).
Notation tgt := (target resub rules planned).
Notation aff := (affected resub rules).

Record tracked (db : list table) (o : db_output) : Prop := mkTracked {
  tk_names : NoDup (map tb_name db);
  tk_meta : meta_ok (ou_meta o);
  tk_dots : names_ok (ou_meta o);
  tk_tables : forall n m, In (n, m) (ou_meta o) -> table_of db n (tm_table m) /\ m = new_meta (tm_table m);
  tk_keys : forall n, In n (dkeys (ou_meta o)) <-> aff db planned n;
  tk_remap : table_remap resub cfg planned = Ok (ou_remap o) }.

Lemma target_key rm : table_remap resub cfg planned = Ok rm -> forall k, In k (dkeys rm) <-> exists n', k = render n' /\ tgt n'.
Proof.
  intros H k. destruct (remap_spec H) as (Hn & Hd). split.
  - intros Hk. apply key_dget in Hk. destruct Hk as (t & Hk). apply Hd in Hk. destruct Hk as (Ht & n & n' & Hnm & Hg & ->).
    exists n'. split; [reflexivity|]. exists t, n. tauto.
  - intros (n' & -> & t & n & Ht & Hnm & Hg). assert (Hx : dget rm (render n') = Some t) by (apply Hd; split; [exact Ht|]; exists n, n'; tauto).
    apply dget_In in Hx. apply in_map_iff. exists (render n', t). tauto.
Qed.

Lemma table_of_fun db n t t' : NoDup (map tb_name db) -> table_of db n t -> table_of db n t' -> t = t'.
Proof. intros Hn [H1 <-] [H2 He]. eapply NoDup_map_same; [exact Hn|exact H1|exact H2|now symmetry]. Qed.

Lemma tracked_edge db o a b : tracked db o -> fk_edge (ou_meta o) a b <-> references db a b /\ In a (dkeys (ou_meta o)) /\ In b (dkeys (ou_meta o)).
Proof.
  intros [Hnd [Hmn Hmk] _ Ht _ _]. split.
  - intros (m & fk & Hm & Hfk & Hd & Hb). destruct (Ht _ _ Hm) as [Hto He]. split; [|split; [|exact Hb]].
    + exists (tm_table m), fk. rewrite He in Hfk. tauto.
    + apply in_map_iff. exists (a, m). tauto.
  - intros ((t & fk & Hto & Hfk & Hd) & Ha & Hb). apply in_map_iff in Ha. destruct Ha as ([a' m] & Ha & Hm). cbn in Ha. subst a'.
    destruct (Ht _ _ Hm) as [Hto' He]. rewrite (table_of_fun Hnd Hto Hto') in Hfk. apply (f_equal tm_fks) in He. cbn in He. exists m, fk. rewrite He. tauto.
Qed.

Lemma init_tracked (fnm : string -> string -> bool) d o : db_ok (ds_tables d) -> plain_names fnm tgt ->
  db_init fnm resub cfg d planned = Ok o -> tracked (ds_tables d) o.
Proof.
  intros Hdb Hplain H. unfold db_init in H. apply bind_Ok in H. destruct H as (rm & Hrm & H). apply bind_Ok in H. destruct H as ([ms extra] & He & H). inv H.
  destruct (from_engine_spec fnm (dkeys rm) false true Hdb) as (ms' & extra' & He' & Hk & Hn & Hs & Hm). rewrite He' in He. inv He.
  assert (Hmatch : forall n, matching fnm (ds_tables d) (dkeys rm) n <-> tgt n /\ exists t, table_of (ds_tables d) n t).
  { intros n. split.
    - intros (t & s & p & Ht & Hs' & Hp & Hf). apply (target_key Hrm) in Hp. destruct Hp as (n' & -> & Hn').
      apply (Hplain n' s Hn') in Hf. subst s. assert (n' = n); [|subst; eauto].
      destruct Hs' as [He Hd]. apply render_inj; [|exact Hd|exact He]. destruct Hn' as (s' & n0 & _ & _ & Hg). exact (goes_dot Hg).
    - intros [Hg (t & Ht)]. exists t, (render n), (render n). split; [exact Ht|].
      split; [apply named_render; destruct Hg as (s' & n0 & _ & _ & Hg); exact (goes_dot Hg)|].
      split; [apply (target_key Hrm); eauto|]. now apply (Hplain n). }
  constructor; cbn [ou_meta ou_remap].
  - apply Hdb.
  - split; [exact Hn|]. intros n m Hin. destruct (Hm n m Hin) as (t & [_ Ht] & ->). exact Ht.
  - intros n Hin. apply in_map_iff in Hin. destruct Hin as ([n0 m] & <- & Hin). destruct (Hm _ _ Hin) as (t & [Ht <-] & _). now apply Hdb.
  - intros n m Hin. destruct (Hm n m Hin) as (t & Ht & ->). split; [exact Ht|reflexivity].
  - intros n. rewrite Hs. unfold selected, affected.
    assert (Hf : forall a b, path0 (follow (ds_tables d) false true) a b <-> path0 (fun a b => references (ds_tables d) b a) a b).
    { assert (Hstep : forall a b, follow (ds_tables d) false true a b <-> references (ds_tables d) b a).
      { intros a b. unfold follow. split; [intros [[Hx _]|[_ Hx]]; [discriminate|exact Hx]|tauto]. }
      intros a b. split; intros Hp; induction Hp as [a b Hx|a|a b c _ IH1 _ IH2];
        [apply rt_step, Hstep, Hx|apply rt_refl|eapply rt_trans; eassumption|apply rt_step, Hstep, Hx|apply rt_refl|eapply rt_trans; eassumption]. }
    split; intros (m & Hx); exists m.
    + destruct Hx as [Hx Hp]. apply Hmatch in Hx. apply Hf in Hp. tauto.
    + destruct Hx as (Hx & Hy & Hp). split; [apply Hmatch; tauto|now apply Hf].
  - exact Hrm.
Qed.

(** ** Order of insertion *)
Variable ord : list string -> list string.
Hypothesis Hord : any_order ord.

Lemma flat_map_singles {A B} (f : A -> option B) l :
  (forall x y b, In x l -> In y l -> f x = Some b -> f y = Some b -> x = y) -> NoDup l ->
  NoDup (flat_map (fun x => match f x with Some b => [b] | None => [] end) l).
Proof.
  intros Hinj Hn. induction Hn as [|a l Ha Hn IH]; cbn [flat_map]; [constructor|].
  assert (IH' : NoDup (flat_map (fun x => match f x with Some b => [b] | None => [] end) l)) by (apply IH; intros x y b Hx Hy; apply Hinj; now right).
  destruct (f a) as [b|] eqn:E; [|exact IH']. constructor; [|exact IH'].
  intros Hin. apply in_flat_map in Hin. destruct Hin as (y & Hy & Hb). destruct (f y) as [b'|] eqn:E'; [|destruct Hb]. destruct Hb as [->|[]].
  apply Ha. rewrite (Hinj a y b); [exact Hy|now left|now right|exact E|exact E'].
Qed.
Lemma flat_map_before {A B} (f : A -> option B) l x y b c : before l x y -> f x = Some b -> f y = Some c ->
  before (flat_map (fun x => match f x with Some b => [b] | None => [] end) l) b c.
Proof.
  intros (l1 & l2 & l3 & ->) Hx Hy. eexists _, _, _. rewrite flat_map_app. cbn [flat_map]. rewrite Hx, flat_map_app. cbn [flat_map]. rewrite Hy.
  cbn [app]. reflexivity.
Qed.

Definition at_dest (o : db_output) (t : string) (n' : tname) : Prop :=
  In t planned /\ In n' (dkeys (ou_meta o)) /\ exists n, named t n /\ goes_to resub rules n n'.

Lemma at_dest_fun o t a b : at_dest o t a -> at_dest o t b -> a = b.
Proof. intros (_ & _ & n & Hn & Hg) (_ & _ & m & Hm & Hg'). rewrite (named_fun Hm Hn) in Hg'. exact (goes_fun Hg Hg'). Qed.

Lemma order_spec db o order : tracked db o -> db_insert_order ord o = Ok order ->
  NoDup order /\ (forall t, In t order <-> exists n', at_dest o t n') /\
  (forall a b na nb, at_dest o a na -> at_dest o b nb -> references db na nb -> before order b a) /\
  (forall a b n', at_dest o a n' -> at_dest o b n' -> a = b).
Proof.
  intros Htk H. unfold db_insert_order in H. apply bind_Ok in H. destruct H as (l & Hl & H). unfold of_topo in Hl.
  destruct (meta_toposort ord (ou_meta o)) as [l'|e] eqn:Et; [|destruct e; discriminate]. inv Hl. inv H.
  destruct (mtopo_spec Hord (tk_meta Htk) (tk_dots Htk) Et) as (HP & HN & Hin & Hb).
  destruct (remap_spec (tk_remap Htk)) as (Hrn & Hrd).
  set (f := fun n : tname => match dget (ou_remap o) (render n) with Some t => if eqb t EmptyString then None else Some t | None => None end).
  assert (Heq : flat_map (fun m => match dget (ou_remap o) (render (tm_name m)) with Some t => if eqb t EmptyString then [] else [t] | None => [] end) l =
                flat_map (fun n => match f n with Some b => [b] | None => [] end) (map tm_name l)).
  { clear. induction l as [|m l IH]; cbn [flat_map map]; [reflexivity|]. rewrite IH. f_equal. unfold f.
    destruct (dget _ _) as [t|]; [|reflexivity]. destruct (eqb t EmptyString); reflexivity. }
  rewrite Heq. clear Heq.
  assert (Hf : forall n t, In n (map tm_name l) -> f n = Some t <-> at_dest o t n).
  { intros n t Hn. assert (Hk : In n (dkeys (ou_meta o))) by (eapply Permutation_in; eassumption). unfold f. split.
    - intros Hx. destruct (dget (ou_remap o) (render n)) as [t'|] eqn:E; [|discriminate]. apply Hrd in E. destruct E as (Ht' & n0 & n' & Hnm & Hg & He).
      destruct (eqb t' EmptyString); [discriminate|]. inv Hx. split; [exact Ht'|]. split; [exact Hk|]. exists n0. split; [exact Hnm|].
      replace n with n'; [exact Hg|]. apply render_inj; [exact (goes_dot Hg)|now apply (tk_dots Htk)|now symmetry].
    - intros (Ht & _ & n0 & Hnm & Hg). replace (dget (ou_remap o) (render n)) with (Some t).
      + assert (E : eqb t EmptyString = false); [|now rewrite E]. apply eqb_false. rewrite (named_eq Hnm). apply render_nonempty.
      + symmetry. apply Hrd. split; [exact Ht|]. exists n0, n. tauto. }
  assert (Hinj : forall a b n', at_dest o a n' -> at_dest o b n' -> a = b).
  { intros a b n' Ha Hb'. assert (Hn : In n' (map tm_name l)) by (eapply Permutation_in; [symmetry; exact HP|apply Ha]).
    apply (Hf n' a Hn) in Ha. apply (Hf n' b Hn) in Hb'. congruence. }
  split; [|split; [|split]].
  - apply flat_map_singles; [|exact HN]. intros x y b Hx Hy H1 H2. apply (Hf _ _ Hx) in H1. apply (Hf _ _ Hy) in H2. eapply at_dest_fun; eassumption.
  - intros t. rewrite in_flat_map. split.
    + intros (n & Hn & Ht). destruct (f n) as [t'|] eqn:E; [|destruct Ht]. destruct Ht as [->|[]]. exists n. now apply Hf.
    + intros (n & Hn). assert (Hn' : In n (map tm_name l)) by (eapply Permutation_in; [symmetry; exact HP|apply Hn]).
      exists n. split; [exact Hn'|]. rewrite (proj2 (Hf n t Hn') Hn). now left.
  - intros a b na nb Ha Hb' Hr.
    assert (Hna : In na (map tm_name l)) by (eapply Permutation_in; [symmetry; exact HP|apply Ha]).
    assert (Hnb : In nb (map tm_name l)) by (eapply Permutation_in; [symmetry; exact HP|apply Hb']).
    eapply flat_map_before; [apply Hb; apply (tracked_edge _ _ Htk); split; [exact Hr|split; [apply Ha|apply Hb']]|now apply Hf|now apply Hf].
  - exact Hinj.
Qed.
End Tracked.
