(** metadata.py: selection, inference, reverse keys, graph (C24-C26). *)
From Verif Require Import Model.Base Model.Solver Model.Value Model.Names Model.Metadata Spec.GraphSpec Spec.SchemaSpec
  Proofs.BaseFacts Proofs.GraphFacts Proofs.NameFacts.
Set Implicit Arguments.
Unset Strict Implicit.

Lemma db_names_inj db t t' : db_ok db -> In t db -> In t' db -> tb_name t = tb_name t' -> t = t'.
Proof.
  intros [Hn _]. revert Hn. induction db as [|a db IH]; cbn [map In]; [tauto|].
  intros Hn Ht Ht' He. apply NoDup_cons_iff in Hn. destruct Hn as [Ha Hn].
  destruct Ht as [->|Ht], Ht' as [->|Ht']; [reflexivity| | |apply IH; assumption].
  - exfalso. apply Ha. rewrite He. apply in_map. exact Ht'.
  - exfalso. apply Ha. rewrite <- He. apply in_map. exact Ht.
Qed.

Lemma tables_keys db : dkeys (metadata_tables db) = map (fun t => render (tb_name t)) db.
Proof. unfold dkeys, metadata_tables. rewrite map_map. reflexivity. Qed.

Lemma NoDup_map_inj {A B} (f : A -> B) l :
  (forall x y, In x l -> In y l -> f x = f y -> x = y) -> NoDup l -> NoDup (map f l).
Proof.
  induction l as [|a l IH]; intros Hf Hn; cbn [map]; [constructor|]. apply NoDup_cons_iff in Hn. destruct Hn as [Ha Hn].
  constructor.
  - intros Hin. apply in_map_iff in Hin. destruct Hin as (x & Hx & Hxl).
    apply Hf in Hx; [|right; exact Hxl|left; reflexivity]. subst. contradiction.
  - apply IH; [|exact Hn]. intros x y Hx Hy. apply Hf; right; assumption.
Qed.
Lemma NoDup_map_rev {A B} (f : A -> B) l : NoDup (map f l) -> NoDup l.
Proof.
  induction l as [|a l IH]; cbn [map]; intros Hn; constructor; apply NoDup_cons_iff in Hn; destruct Hn as [Ha Hn].
  - intros Hin. apply Ha. apply in_map. exact Hin.
  - apply IH. exact Hn.
Qed.

Lemma tables_nodup db : db_ok db -> NoDup (dkeys (metadata_tables db)).
Proof.
  intros Hdb. rewrite tables_keys. rewrite <- (map_map tb_name render). apply NoDup_map_inj; [|apply Hdb].
  intros x y Hx Hy. apply in_map_iff in Hx, Hy. destruct Hx as (t & <- & Ht), Hy as (t' & <- & Ht').
  apply render_inj; apply Hdb; assumption.
Qed.
Lemma tables_get db n t : db_ok db -> no_dot (fst n) -> dget (metadata_tables db) (render n) = Some t <-> table_of db n t.
Proof.
  intros Hdb Hnd. rewrite (dget_iff _ _ (tables_nodup Hdb)). unfold metadata_tables. rewrite in_map_iff. split.
  - intros (t' & Heq & Ht). inversion Heq; subst. split; [exact Ht|]. apply render_inj; [apply Hdb; exact Ht|exact Hnd|assumption].
  - intros [Ht <-]. exists t. split; [reflexivity|exact Ht].
Qed.
Lemma table_no_dot db n t : db_ok db -> table_of db n t -> no_dot (fst n).
Proof. intros Hdb [Ht <-]. apply Hdb. exact Ht. Qed.
Lemma tables_find {E} (x : E) db n t : db_ok db -> table_of db n t -> dfind x (metadata_tables db) (render n) = Ok t.
Proof. intros Hdb Ht. apply dfind_Ok. apply tables_get; [exact Hdb|eapply table_no_dot; eassumption|exact Ht]. Qed.
Lemma table_of_fun db n t t' : db_ok db -> table_of db n t -> table_of db n t' -> t = t'.
Proof. intros Hdb [H1 H2] [H3 H4]. eapply db_names_inj; try eassumption. congruence. Qed.

Lemma table_deps_In db fwd bwd n x : In x (table_deps db fwd bwd n) <-> follow db fwd bwd n x.
Proof.
  unfold table_deps, follow, references. rewrite in_flat_map. split.
  - intros (t & Ht & Hin). apply in_flat_map in Hin. destruct Hin as (fk & Hfk & Hin). apply in_app_iff in Hin.
    destruct Hin as [Hin|Hin].
    + destruct fwd; cbn [andb] in Hin; [|destruct Hin]. destruct (eqb (tb_name t) n) eqn:Et; [|destruct Hin].
      destruct Hin as [<-|[]].
      apply (proj1 (eqb_true _ _)) in Et. left. split; [reflexivity|]. exists t, fk. repeat split; assumption.
    + destruct bwd; cbn [andb] in Hin; [|destruct Hin]. destruct (eqb (fk_dst fk) n) eqn:Et; [|destruct Hin].
      destruct Hin as [<-|[]].
      apply (proj1 (eqb_true _ _)) in Et. right. split; [reflexivity|]. exists t, fk. repeat split; assumption.
  - intros [(-> & t & fk & [Ht Hn] & Hfk & Hd)|(-> & t & fk & [Ht Hn] & Hfk & Hd)]; exists t; (split; [exact Ht|]);
      apply in_flat_map; exists fk; (split; [exact Hfk|]); apply in_app_iff.
    + left. rewrite (proj2 (eqb_true _ _) Hn). left. exact Hd.
    + right. rewrite (proj2 (eqb_true _ _) Hd). left. exact Hn.
Qed.

Lemma follow_table db fwd bwd a b : db_ok db -> follow db fwd bwd a b -> exists t, table_of db b t.
Proof.
  intros Hdb [(_ & t & fk & [Ht Hn] & Hfk & Hd)|(_ & t & fk & [Ht Hn] & Hfk & Hd)].
  - destruct Hdb as [_ Hok]. destruct (Hok t Ht) as (_ & _ & _ & Hw). destruct (Hw fk Hfk) as (_ & _ & _ & d & Hdt & _).
    exists d. rewrite <- Hd. exact Hdt.
  - exists t. split; assumption.
Qed.

Lemma close_inner_spec refs seen queue seen' queue' :
  close_inner refs seen queue = (seen', queue') ->
  (forall x, In x seen <-> In x queue) -> NoDup queue ->
  exists new, queue' = queue ++ new /\ NoDup queue' /\ (forall x, In x seen' <-> In x queue') /\
    (forall x, In x new -> In x refs) /\ (forall x, In x refs -> In x queue').
Proof.
  revert seen queue. induction refs as [|n refs IH]; intros seen queue Hc Hs Hn; cbn [close_inner] in Hc.
  - inversion Hc; subst. exists []. rewrite app_nil_r. repeat split; try assumption; try apply Hs; intros x []. 
  - destruct (memb n seen) eqn:Em.
    + apply (proj1 (memb_true _ _)) in Em. destruct (IH _ _ Hc Hs Hn) as (new & -> & H1 & H2 & H3 & H4).
      exists new. split; [reflexivity|]. split; [exact H1|]. split; [exact H2|]. split.
      * intros x Hx. right. apply H3. exact Hx.
      * intros x [<-|Hx]; [apply in_app_iff; left; apply Hs; exact Em|apply H4; exact Hx].
    + apply (proj1 (memb_false _ _)) in Em.
      destruct (IH _ _ Hc) as (new & -> & H1 & H2 & H3 & H4).
      * intros x. rewrite set_add_In, in_app_iff, Hs. cbn. intuition.
      * apply NoDup_app_one; [exact Hn|]. rewrite <- Hs. exact Em.
      * exists (n :: new). rewrite <- app_assoc in *. split; [reflexivity|]. split; [exact H1|]. split; [exact H2|]. split.
        -- intros x [<-|Hx]; [left; reflexivity|right; apply H3; exact Hx].
        -- intros x [<-|Hx]; [apply in_app_iff; right; left; reflexivity|apply H4; exact Hx].
Qed.

Section Close.
Variables (db : list table) (fwd bwd : bool) (base : list tname).
Hypothesis Hdb : db_ok db.
Hypothesis base_db : forall x, In x base -> exists t, table_of db x t.

Lemma nodup_le (q : list tname) : NoDup q -> (forall x, In x q -> exists t, table_of db x t) -> length q <= length db.
Proof.
  intros Hn Hq. rewrite <- (map_length tb_name db). apply NoDup_incl_length; [exact Hn|].
  intros x Hx. destruct (Hq x Hx) as (t & Ht & <-). apply in_map. exact Ht.
Qed.

Lemma close_loop_spec : forall fuel i seen ext,
  NoDup (base ++ ext) -> (forall x, In x seen <-> In x (base ++ ext)) ->
  (forall x, In x (base ++ ext) -> (exists t, table_of db x t) /\ exists m, In m base /\ path0 (follow db fwd bwd) m x) ->
  (forall j x y, j < i -> nth_error (base ++ ext) j = Some x -> follow db fwd bwd x y -> In y (base ++ ext)) ->
  i <= length (base ++ ext) -> length db < fuel + i ->
  exists ext', close_loop fuel i db fwd bwd seen (base ++ ext) = Ok (base ++ ext') /\
    NoDup (base ++ ext') /\
    (forall x, In x (base ++ ext') -> (exists t, table_of db x t) /\ exists m, In m base /\ path0 (follow db fwd bwd) m x) /\
    (forall x y, In x (base ++ ext') -> follow db fwd bwd x y -> In y (base ++ ext')).
Proof.
  induction fuel as [|f IH]; intros i seen ext Hn Hs Hx Hd Hi Hf.
  - exfalso. assert (Hle : length (base ++ ext) <= length db) by (apply nodup_le; [exact Hn|intros x Hx'; apply Hx; exact Hx']).
    lia.
  - cbn [close_loop]. destruct (nth_error (base ++ ext) i) as [n|] eqn:En.
    + assert (Hin : In n (base ++ ext)) by (eapply nth_error_In; exact En).
      destruct (Hx n Hin) as [[t Ht] (m & Hm & Hmn)].
      rewrite (tables_find MeKeyError Hdb Ht). cbn [bind].
      destruct (close_inner (table_deps db fwd bwd n) seen (base ++ ext)) as [seen' queue'] eqn:Ec.
      destruct (close_inner_spec Ec Hs Hn) as (new & -> & H1 & H2 & H3 & H4). rewrite <- app_assoc in *.
      apply IH.
      * exact H1.
      * exact H2.
      * intros x Hxin. rewrite app_assoc in Hxin. apply in_app_iff in Hxin. destruct Hxin as [Hxin|Hxin]; [apply Hx; exact Hxin|].
        apply H3 in Hxin. apply table_deps_In in Hxin. split; [eapply follow_table; eassumption|].
        exists m. split; [exact Hm|]. eapply rt_trans; [exact Hmn|]. apply rt_step. exact Hxin.
      * intros j x y Hj Hxj Hfo. rewrite app_assoc in Hxj. rewrite app_assoc.
        assert (Hlt : j < length (base ++ ext)).
        { assert (Hil : i < length (base ++ ext)) by (apply nth_error_Some; congruence). lia. }
        rewrite nth_error_app1 in Hxj by exact Hlt.
        destruct (Nat.eq_dec j i) as [->|Hne].
        -- assert (x = n) by congruence. subst x. rewrite <- app_assoc. apply H4. apply table_deps_In. exact Hfo.
        -- apply in_app_iff. left. apply (Hd j x y); [lia|assumption|assumption].
      * assert (Hil : i < length (base ++ ext)) by (apply nth_error_Some; congruence).
        rewrite app_length in Hil. rewrite !app_length. lia.
      * lia.
    + exists ext. split; [reflexivity|]. split; [exact Hn|]. split; [exact Hx|].
      intros x y Hxin Hfo. apply In_nth_error in Hxin. destruct Hxin as (j & Hj).
      apply (Hd j x y); [|exact Hj|exact Hfo].
      apply nth_error_None in En. assert (Hjl : j < length (base ++ ext)) by (apply nth_error_Some; congruence). lia.
Qed.
End Close.

Lemma mapM_length {E A B} (f : A -> res E B) l bs : mapM f l = Ok bs -> length bs = length l.
Proof. intros Hm. apply mapM_Ok in Hm. induction Hm; cbn; [reflexivity|congruence]. Qed.

Lemma dict_of_nodup {K V} `{EqDec K} (l : list (K * V)) : NoDup (map fst l) -> dict_of l = l.
Proof.
  unfold dict_of. intros Hn.
  assert (Hgen : forall d : dict K V, NoDup (map fst (d ++ l)) -> fold_left (fun d kv => dset d (fst kv) (snd kv)) l d = d ++ l).
  { clear Hn. induction l as [|[k v] l IH]; intros d Hn; cbn [fold_left]; [rewrite app_nil_r; reflexivity|].
    cbn [fst snd]. rewrite dset_new.
    - rewrite IH; [rewrite <- app_assoc; reflexivity|]. rewrite <- app_assoc. exact Hn.
    - rewrite map_app in Hn. apply NoDup_app_iff in Hn. destruct Hn as (_ & _ & Hd). intros Hin. apply (Hd k Hin). left. reflexivity. }
  apply (Hgen []). exact Hn.
Qed.

Definition matching_names (fnm : string -> string -> bool) (db : list table) (select : list string) : list tname :=
  map tb_name (filter (fun t => existsb (fnm (render (tb_name t))) select) db).

Lemma matching_names_In fnm db select n : db_ok db ->
  In n (matching_names fnm db select) <-> matching fnm db select n.
Proof.
  intros Hdb. unfold matching_names, matching. rewrite in_map_iff. split.
  - intros (t & <- & Hin). apply filter_In in Hin. destruct Hin as [Ht Hp]. apply existsb_exists in Hp.
    destruct Hp as (p & Hp & Hm). exists t, (render (tb_name t)), p. split; [split; [exact Ht|reflexivity]|].
    split; [apply named_render; apply Hdb; exact Ht|]. tauto.
  - intros (t & s & p & [Ht <-] & Hnm & Hp & Hm). exists t. split; [reflexivity|]. apply filter_In. split; [exact Ht|].
    apply existsb_exists. exists p. split; [exact Hp|]. rewrite <- (named_eq Hnm). exact Hm.
Qed.

Theorem from_engine_spec fnm db select fwd bwd : db_ok db ->
  exists ms extra, from_engine fnm db select fwd bwd = Ok (ms, extra) /\
    dkeys ms = matching_names fnm db select ++ extra /\ NoDup (dkeys ms) /\
    (forall n, In n (dkeys ms) <-> selected fnm db select fwd bwd n) /\
    (forall n m, In (n, m) ms -> exists t, table_of db n t /\ m = new_meta t).
Proof.
  intros Hdb. unfold from_engine.
  assert (Hq : map (fun kt : string * table => tb_name (snd kt))
                 (filter (fun kt => existsb (fun p => fnm (fst kt) p) select) (metadata_tables db)) =
               matching_names fnm db select).
  { unfold matching_names, metadata_tables. clear Hdb. induction db as [|t db IH]; [reflexivity|]. cbn [map filter fst].
    destruct (existsb _ select); cbn [map snd]; rewrite IH; reflexivity. }
  rewrite Hq. set (base := matching_names fnm db select) in *.
  assert (Hbdb : forall x, In x base -> exists t, table_of db x t).
  { intros x Hx. apply matching_names_In in Hx; [|exact Hdb]. destruct Hx as (t & _ & _ & Ht & _). exists t. exact Ht. }
  assert (Hbn : NoDup base).
  { unfold base, matching_names. destruct Hdb as [Hn _]. clear - Hn. induction db as [|t db IH]; [constructor|].
    cbn [map] in Hn. apply NoDup_cons_iff in Hn. destruct Hn as [Ha Hn]. cbn [filter].
    destruct (existsb _ select); [|apply IH; exact Hn]. cbn [map]. constructor; [|apply IH; exact Hn].
    intros Hin. apply Ha. apply in_map_iff in Hin. destruct Hin as (x & <- & Hx). apply filter_In in Hx.
    apply in_map. apply Hx. }
  destruct (@close_loop_spec db fwd bwd base Hdb (S (length db)) 0 (set_of base) []) as (ext & Hl & Hn & Hx & Hc).
  - rewrite app_nil_r. exact Hbn.
  - intros x. rewrite app_nil_r. apply set_of_In.
  - rewrite app_nil_r. intros x Hx. split; [apply Hbdb; exact Hx|]. exists x. split; [exact Hx|apply rt_refl].
  - intros j x y Hj. lia.
  - lia.
  - lia.
  - rewrite app_nil_r in Hl. rewrite Hl. cbn [bind].
    assert (Hm : exists tables, mapM (fun n => let* t := dfind MeKeyError (metadata_tables db) (render n) in Ok (n, new_meta t)) (base ++ ext) = Ok tables
        /\ map fst tables = base ++ ext /\ forall n m, In (n, m) tables -> exists t, table_of db n t /\ m = new_meta t).
    { clear Hl Hn Hc. induction (base ++ ext) as [|n l IHl]; [exists []; repeat split; intros n m []|].
      destruct IHl as (tables & Ht & Hf & Hall); [intros x Hxl; apply Hx; right; exact Hxl|].
      destruct (Hx n (or_introl eq_refl)) as [[t Htab] _].
      exists ((n, new_meta t) :: tables). cbn [mapM]. rewrite (tables_find MeKeyError Hdb Htab). cbn [bind]. rewrite Ht. cbn [bind map fst].
      split; [reflexivity|]. split; [rewrite Hf; reflexivity|]. intros n' m' [Heq|Hin]; [|apply Hall; exact Hin].
      inversion Heq; subst. exists t. tauto. }
    destruct Hm as (tables & Hm & Hf & Hall). rewrite Hm. cbn [bind].
    assert (Hdo : dict_of tables = tables) by (apply dict_of_nodup; rewrite Hf; exact Hn).
    exists tables, ext. rewrite Hdo. split; [|split; [exact Hf|split; [unfold dkeys; rewrite Hf; exact Hn|split]]].
    + do 2 f_equal. rewrite skipn_app, skipn_all, Nat.sub_diag. reflexivity.
    + intros n. unfold dkeys. rewrite Hf. split.
      * intros Hin. destruct (Hx n Hin) as [_ (m & Hmb & Hp)]. exists m. split; [apply matching_names_In; [exact Hdb|exact Hmb]|exact Hp].
      * intros (m & Hmm & Hp). apply matching_names_In in Hmm; [|exact Hdb].
        apply Operators_Properties.clos_rt_rtn1 in Hp. induction Hp as [|a b Hab Hp IHp]; [apply in_app_iff; left; exact Hmm|].
        eapply Hc; eassumption.
    + exact Hall.
Qed.

(** * Foreign key inference *)
Definition pk_key (infer_all : bool) (m : tmeta) := key_pk infer_all (fst (tb_name (tm_table m))) (tb_pk (tm_table m)).
Definition has_key (infer_all : bool) (k : option string * list string) (m : tmeta) : bool :=
  negb (is_nil (tb_pk (tm_table m))) && eqb (pk_key infer_all m) k.

Lemma pk_map_get infer_all l k :
  dget (pk_map infer_all l) k =
  match filter (has_key infer_all k) l with
  | [] => None
  | [m] => Some (Some (tb_name (tm_table m)))
  | _ => Some None
  end.
Proof.
  induction l as [|m l IH] using rev_ind; [reflexivity|].
  unfold pk_map in *. rewrite fold_left_app, filter_app. cbn [fold_left filter].
  unfold has_key at 2. fold (pk_key infer_all m).
  match goal with |- dget (if _ then ?x else _) _ = _ => set (d := x) in * end.
  destruct (is_nil (tb_pk (tm_table m))) eqn:Ep; cbn [negb andb]; [rewrite app_nil_r; exact IH|].
  destruct (eqb (pk_key infer_all m) k) eqn:Ek.
  - apply (proj1 (eqb_true _ _)) in Ek. subst k. unfold dmem. rewrite IH.
    destruct (filter (has_key infer_all (pk_key infer_all m)) l) as [|m1 [|m2 r]]; cbn [app]; rewrite dget_dset_eq; reflexivity.
  - rewrite app_nil_r. rewrite <- IH. apply (proj1 (eqb_false _ _)) in Ek.
    destruct (dmem d (pk_key infer_all m)); apply dget_dset_ne; congruence.
Qed.

Lemma filter_single {A} (p : A -> bool) l x : NoDup l -> In x l -> p x = true -> (forall y, In y l -> p y = true -> y = x) -> filter p l = [x].
Proof.
  induction l as [|a l IH]; intros Hn Hin Hp Hu; [destruct Hin|]. apply NoDup_cons_iff in Hn. destruct Hn as [Ha Hn]. cbn [filter].
  destruct (p a) eqn:Ea.
  - assert (a = x) by (apply Hu; [left; reflexivity|exact Ea]). subst a. f_equal.
    clear IH. assert (Hnone : forall y, In y l -> p y = false).
    { intros y Hy. destruct (p y) eqn:Ey; [|reflexivity]. exfalso. apply Ha. rewrite <- (Hu y (or_intror Hy) Ey). exact Hy. }
    clear - Hnone. induction l as [|b l IH]; [reflexivity|]. cbn [filter]. rewrite (Hnone b (or_introl eq_refl)). apply IH.
    intros y Hy. apply Hnone. right. exact Hy.
  - apply IH; [exact Hn| |exact Hp|intros y Hy; apply Hu; right; exact Hy].
    destruct Hin as [->|Hin]; [congruence|exact Hin].
Qed.

Lemma dvals_In {K V} (d : dict K V) v : In v (dvals d) <-> exists k, In (k, v) d.
Proof.
  unfold dvals. rewrite in_map_iff. split; [intros ([k v'] & <- & Hin); exists k; exact Hin|intros [k Hin]; exists (k, v); tauto].
Qed.
Lemma meta_vals_nodup ms : meta_ok ms -> NoDup (dvals ms).
Proof.
  intros [Hn Hnm]. apply NoDup_map_rev with (f := tm_name). unfold dvals. rewrite map_map.
  replace (map (fun x => tm_name (snd x)) ms) with (dkeys ms); [exact Hn|]. unfold dkeys. apply map_ext_in.
  intros [n m] Hin. cbn. symmetry. apply Hnm. exact Hin.
Qed.
Lemma meta_key_of ms n m : meta_ok ms -> In (n, m) ms -> In (tm_name m, m) ms.
Proof. intros [_ Hnm] Hin. rewrite (Hnm _ _ Hin). exact Hin. Qed.

Lemma pk_map_sole infer_all ms s c d : meta_ok ms ->
  dget (pk_map infer_all (dvals ms)) (key_pk infer_all s [c]) = Some (Some d) <-> sole_pk infer_all ms s c d.
Proof.
  intros Hms. rewrite pk_map_get.
  assert (Hk : forall m, has_key infer_all (key_pk infer_all s [c]) m = true <->
                         tb_pk (tm_table m) = [c] /\ (infer_all = true \/ fst (tm_name m) = s)).
  { intros m. unfold has_key, pk_key, key_pk, tm_name. rewrite andb_true_iff, negb_true_iff, eqb_true. split.
    - intros [Hp He]. inversion He as [[H1 H2]]. split; [reflexivity|]. destruct infer_all; [left; reflexivity|right]. congruence.
    - intros [Hp Hs]. rewrite Hp. split; [reflexivity|]. destruct infer_all; [reflexivity|]. destruct Hs as [Hs|<-]; [discriminate|reflexivity]. }
  split.
  - intros Hget. destruct (filter _ (dvals ms)) as [|m [|m2 r]] eqn:Ef; try discriminate. inversion Hget; subst d.
    assert (Hin : forall x, In x (dvals ms) /\ has_key infer_all (key_pk infer_all s [c]) x = true <-> x = m).
    { intros x. rewrite <- filter_In, Ef. cbn. intuition. }
    destruct (proj2 (Hin m) eq_refl) as [Hm Hkm]. apply Hk in Hkm. apply dvals_In in Hm. destruct Hm as [n Hm].
    split.
    + exists m. split; [exact (meta_key_of Hms Hm)|exact Hkm].
    + intros d' (m' & Hm' & Hp' & Hs'). destruct Hms as [_ Hnm]. rewrite <- (Hnm _ _ Hm') in *.
      assert (m' = m); [|subst; reflexivity]. apply Hin. split; [apply dvals_In; eexists; exact Hm'|]. apply Hk. tauto.
  - intros [(m & Hm & Hp & Hs) Hu]. pose proof (proj2 Hms _ _ Hm) as Hnm.
    rewrite (@filter_single _ _ (dvals ms) m).
    + unfold tm_name in Hnm. rewrite Hnm. reflexivity.
    + apply meta_vals_nodup. exact Hms.
    + apply dvals_In. eexists. exact Hm.
    + apply Hk. rewrite Hnm. tauto.
    + intros y Hy Hky. apply Hk in Hky. apply dvals_In in Hy. destruct Hy as [ny Hy].
      pose proof (proj2 Hms _ _ Hy) as Hny.
      assert (ny = d). { apply Hu. exists y. split; [exact Hy|]. rewrite <- Hny. exact Hky. }
      subst ny. rewrite <- H in *. destruct Hms as [Hn _].
      apply (In_dget Hn) in Hm. apply (In_dget Hn) in Hy. congruence.
Qed.

(** The single-column foreign keys inference adds to table [n]. *)
Definition inferred (infer_all : bool) (ms : meta) (n : tname) (m : tmeta) (fk : fkey) : Prop :=
  exists c d, fk = mkFK [c] d [c] /\ In c (tb_cols (tm_table m)) /\ sole_pk infer_all ms (fst n) c d /\ d <> n.

Lemma infer_table_spec infer_all ms n m : meta_ok ms -> In (n, m) ms -> NoDup (tb_cols (tm_table m)) ->
  exists new, infer_table infer_all (pk_map infer_all (dvals ms)) m = with_fks m (tm_fks m ++ new) /\ NoDup new /\
    forall fk, In fk new <-> inferred infer_all ms n m fk /\ ~ In fk (tm_fks m).
Proof.
  intros Hms Hin Hnc. pose proof (proj2 Hms _ _ Hin) as Hnm. unfold tm_name in Hnm.
  unfold infer_table. match goal with |- context [flat_map ?x _] => set (g := x) end.
  exists (flat_map g (tb_cols (tm_table m))). split; [reflexivity|].
  assert (Hg : forall c fk, In fk (g c) <-> (exists d, fk = mkFK [c] d [c] /\ sole_pk infer_all ms (fst n) c d /\ d <> n) /\ ~ In fk (tm_fks m)).
  { intros c fk. unfold g. rewrite Hnm. destruct (dget _ _) as [[d|]|] eqn:Eg.
    - apply pk_map_sole in Eg; [|exact Hms]. destruct (eqb d n) eqn:Ed.
      + apply (proj1 (eqb_true _ _)) in Ed. split; [intros []|]. intros [(d' & _ & [Hs' _] & Hne) _]. destruct Eg as [_ Hu].
        exfalso. apply Hne. rewrite (Hu d' Hs'). exact Ed.
      + apply (proj1 (eqb_false _ _)) in Ed. destruct (memb _ _) eqn:Em.
        * apply (proj1 (memb_true _ _)) in Em. split; [intros []|]. intros [(d' & -> & [Hs' _] & Hne) Hnin]. destruct Eg as [_ Hu].
          exfalso. apply Hnin. rewrite (Hu d' Hs'). exact Em.
        * apply (proj1 (memb_false _ _)) in Em. split.
          -- intros [<-|[]]. split; [exists d; tauto|exact Em].
          -- intros [(d' & -> & [Hs' _] & Hne) Hnin]. destruct Eg as [_ Hu]. left. rewrite (Hu d' Hs'). reflexivity.
    - split; [intros []|]. intros [(d' & _ & Hs' & _) _]. apply pk_map_sole in Hs'; [|exact Hms]. rewrite Eg in Hs'. discriminate.
    - split; [intros []|]. intros [(d' & _ & Hs' & _) _]. apply pk_map_sole in Hs'; [|exact Hms]. rewrite Eg in Hs'. discriminate. }
  split.
  - clear Hin. induction (tb_cols (tm_table m)) as [|c cs IH]; [constructor|]. apply NoDup_cons_iff in Hnc. destruct Hnc as [Hc Hnc].
    cbn [flat_map]. apply NoDup_app_iff. split; [|split; [apply IH; exact Hnc|]].
    + unfold g. destruct (dget _ _) as [[d|]|]; try constructor. destruct (eqb _ _); [constructor|]. destruct (memb _ _); constructor; [intros []|constructor].
    + intros fk Hfk Hfk2. apply in_flat_map in Hfk2. destruct Hfk2 as (c2 & Hc2 & Hfk2). apply Hg in Hfk, Hfk2.
      destruct Hfk as [(d1 & -> & _) _], Hfk2 as [(d2 & He & _) _]. inversion He; subst. contradiction.
  - intros fk. rewrite in_flat_map. split.
    + intros (c & Hc & Hfk). apply Hg in Hfk. destruct Hfk as [(d & -> & Hs & Hne) Hnin]. split; [|exact Hnin]. exists c, d. tauto.
    + intros [(c & d & -> & Hc & Hs & Hne) Hnin]. exists c. split; [exact Hc|]. apply Hg. split; [exists d; tauto|exact Hnin].
Qed.

Lemma infer_keys infer_all ms : dkeys (infer_missing_foreign_keys infer_all ms) = dkeys ms.
Proof. unfold infer_missing_foreign_keys, dkeys. rewrite map_map. reflexivity. Qed.
Lemma infer_In infer_all ms n m' : In (n, m') (infer_missing_foreign_keys infer_all ms) <->
  exists m, In (n, m) ms /\ m' = infer_table infer_all (pk_map infer_all (dvals ms)) m.
Proof.
  unfold infer_missing_foreign_keys. rewrite in_map_iff. split.
  - intros ([n0 m] & He & Hin). cbn [fst snd] in He. inversion He; subst. exists m. tauto.
  - intros (m & Hin & ->). exists (n, m). tauto.
Qed.
Lemma infer_tables infer_all ms : map tm_table (dvals (infer_missing_foreign_keys infer_all ms)) = map tm_table (dvals ms).
Proof. unfold infer_missing_foreign_keys, dvals. rewrite !map_map. apply map_ext. intros [n m]. reflexivity. Qed.
Lemma infer_ok infer_all ms : meta_ok ms -> meta_ok (infer_missing_foreign_keys infer_all ms).
Proof.
  intros [Hn Hnm]. split; [rewrite infer_keys; exact Hn|]. intros n m' Hin. apply infer_In in Hin. destruct Hin as (m & Hin & ->).
  unfold tm_name, infer_table, with_fks. cbn [tm_table]. apply Hnm. exact Hin.
Qed.
Lemma pk_map_tables infer_all l l' : map tm_table l = map tm_table l' -> pk_map infer_all l = pk_map infer_all l'.
Proof.
  intros Ht.
  assert (Hg : forall l, pk_map infer_all l = fold_left (fun d t => if is_nil (tb_pk t) then d else
     let k := key_pk infer_all (fst (tb_name t)) (tb_pk t) in if dmem d k then dset d k None else dset d k (Some (tb_name t))) (map tm_table l) []).
  { intros k. unfold pk_map. generalize (@nil ((option string * list string) * option tname)).
    induction k as [|a k IH]; intros d; cbn [map fold_left]; [reflexivity|apply IH]. }
  rewrite !Hg, Ht. reflexivity.
Qed.
Lemma sole_pk_infer infer_all ms s c d : meta_ok ms ->
  sole_pk infer_all (infer_missing_foreign_keys infer_all ms) s c d <-> sole_pk infer_all ms s c d.
Proof.
  intros Hms. rewrite <- !pk_map_sole by (try apply infer_ok; exact Hms).
  rewrite (@pk_map_tables infer_all _ (dvals ms)); [reflexivity|apply infer_tables].
Qed.

Lemma flat_map_nil {A B} (f : A -> list B) l : (forall x, In x l -> f x = []) -> flat_map f l = [].
Proof. induction l as [|a l IH]; intros Hf; [reflexivity|]. cbn [flat_map]. rewrite (Hf a (or_introl eq_refl)). apply IH. intros x Hx. apply Hf. right. exact Hx. Qed.
Theorem infer_idempotent infer_all ms : meta_ok ms ->
  infer_missing_foreign_keys infer_all (infer_missing_foreign_keys infer_all ms) = infer_missing_foreign_keys infer_all ms.
Proof.
  intros Hms. unfold infer_missing_foreign_keys at 1.
  rewrite (@pk_map_tables infer_all _ (dvals ms)) by apply infer_tables.
  rewrite <- map_id. apply map_ext_in. intros [n m'] Hin. cbn [fst snd]. f_equal. apply infer_In in Hin.
  destruct Hin as (m & Hin & ->). unfold infer_table at 1. cbn [with_fks tm_table tm_fks tm_rev infer_table].
  unfold infer_table, with_fks. cbn [tm_table tm_fks tm_rev]. f_equal.
  match goal with |- ?a ++ ?b = ?a => transitivity (a ++ []); [apply f_equal|apply app_nil_r] end.
  apply flat_map_nil. intros c Hc.
  destruct (dget _ _) as [[d|]|] eqn:Eg; try reflexivity.
  destruct (eqb d (tb_name (tm_table m))) eqn:Ed; [reflexivity|].
  destruct (memb (mkFK [c] d [c]) _) eqn:Em; [reflexivity|]. exfalso. apply (proj1 (memb_false _ _)) in Em. apply Em.
  rewrite in_app_iff. destruct (memb (mkFK [c] d [c]) (tm_fks m)) eqn:Em2; [left; apply memb_true; exact Em2|].
  right. apply in_flat_map. exists c. split; [exact Hc|]. rewrite Eg, Ed, Em2. left. reflexivity.
Qed.

(** * Reverse keys *)
Definition all_fks (ms : meta) : list (tname * fkey) :=
  flat_map (fun m => map (fun fk => (tm_name m, fk)) (tm_fks m)) (dvals ms).

Lemma all_fks_In ms n fk : meta_ok ms -> In (n, fk) (all_fks ms) <-> exists m, In (n, m) ms /\ In fk (tm_fks m).
Proof.
  intros Hms. unfold all_fks. rewrite in_flat_map. split.
  - intros (m & Hm & Hin). apply in_map_iff in Hin. destruct Hin as (fk' & He & Hfk). inversion He; subst.
    apply dvals_In in Hm. destruct Hm as [n Hm]. exists m. split; [exact (meta_key_of Hms Hm)|exact Hfk].
  - intros (m & Hm & Hfk). exists m. split; [apply dvals_In; eexists; exact Hm|]. apply in_map_iff. exists fk.
    rewrite (proj2 Hms _ _ Hm). tauto.
Qed.

Definition mirrors (l : list (tname * fkey)) (n : tname) : list fkey :=
  map (fun tf => mirror (fst tf) (snd tf)) (filter (fun tf => eqb (fk_dst (snd tf)) n) l).
Definition add_rev (l : list (tname * fkey)) (nm : tname * tmeta) : tname * tmeta :=
  (fst nm, with_rev (snd nm) (tm_rev (snd nm) ++ mirrors l (fst nm))).

Lemma add_rev_keys l ms : dkeys (map (add_rev l) ms) = dkeys ms.
Proof. unfold dkeys. rewrite map_map. reflexivity. Qed.

Lemma add_rev_eq l n m : add_rev l (n, m) = (n, with_rev m (tm_rev m ++ mirrors l n)).
Proof. reflexivity. Qed.
Lemma reverse_step_map (ms : meta) l t fk m : NoDup (dkeys ms) -> dget (map (add_rev l) ms) (fk_dst fk) = Some m ->
  dset (map (add_rev l) ms) (fk_dst fk) (with_rev m (tm_rev m ++ [mirror t fk])) = map (add_rev (l ++ [(t, fk)])) ms.
Proof.
  assert (Hmir : forall n, mirrors (l ++ [(t, fk)]) n = mirrors l n ++ if eqb (fk_dst fk) n then [mirror t fk] else []).
  { intros n. unfold mirrors. rewrite filter_app, map_app. cbn [filter snd]. destruct (eqb (fk_dst fk) n); reflexivity. }
  induction ms as [|[n m0] ms IH]; cbn [map]; [discriminate|].
  rewrite !add_rev_eq. cbn [dget dset]. intros Hn Hg. cbn [dkeys map fst] in Hn. apply NoDup_cons_iff in Hn. destruct Hn as [Hna Hn].
  destruct (eq_dec (fk_dst fk) n) as [He|Hne].
  - rewrite <- He in *. inversion Hg; subst m. f_equal.
    + unfold with_rev. cbn [tm_table tm_fks tm_rev]. rewrite Hmir, eqb_refl, app_assoc. reflexivity.
    + apply map_ext_in. intros [n' m'] Hin. rewrite !add_rev_eq, Hmir.
      assert (Hne : fk_dst fk <> n'). { intros He2. apply Hna. rewrite He2. apply in_map_iff. exists (n', m'). tauto. }
      rewrite (proj2 (eqb_false _ _) Hne), app_nil_r. reflexivity.
  - rewrite Hmir, (proj2 (eqb_false _ _) Hne), app_nil_r. f_equal. apply IH; assumption.
Qed.

Theorem reverse_keys_spec ms : meta_ok ms ->
  ((forall n fk, In (n, fk) (all_fks ms) -> In (fk_dst fk) (dkeys ms)) ->
     compute_reverse_keys ms = Ok (map (add_rev (all_fks ms)) ms)) /\
  (~ (forall n fk, In (n, fk) (all_fks ms) -> In (fk_dst fk) (dkeys ms)) -> compute_reverse_keys ms = Err MeKeyError).
Proof.
  intros [Hn _]. unfold compute_reverse_keys. change (flat_map _ (dvals ms)) with (all_fks ms). generalize (all_fks ms) as l. intros l.
  assert (Hmap0 : map (add_rev []) ms = ms).
  { rewrite <- map_id. apply map_ext. intros [n m]. unfold add_rev, mirrors. cbn. rewrite app_nil_r. destruct m. reflexivity. }
  match goal with |- context [forM ?f l ms] => set (g := f) end.
  assert (Hgen : forall l l0,
    ((forall n fk, In (n, fk) l -> In (fk_dst fk) (dkeys ms)) -> forM g l (map (add_rev l0) ms) = Ok (map (add_rev (l0 ++ l)) ms)) /\
    (~ (forall n fk, In (n, fk) l -> In (fk_dst fk) (dkeys ms)) -> forM g l (map (add_rev l0) ms) = Err MeKeyError)).
  { clear l. induction l as [|[t fk] l IH]; intros l0; split; intros Hd; cbn [forM].
    - rewrite app_nil_r. reflexivity.
    - exfalso. apply Hd. intros n fk [].
    - destruct (@key_dget _ _ _ (map (add_rev l0) ms) (fk_dst fk)) as [m Hm].
      { rewrite add_rev_keys. apply (Hd t). left. reflexivity. }
      unfold g at 1. cbn [fst snd]. unfold dfind. rewrite Hm. cbn [bind]. rewrite (@reverse_step_map ms l0 t fk m Hn Hm).
      replace (l0 ++ (t, fk) :: l) with ((l0 ++ [(t, fk)]) ++ l) by (rewrite <- app_assoc; reflexivity).
      apply IH. intros n fk' Hin. apply (Hd n). right. exact Hin.
    - unfold g at 1. cbn [fst snd]. unfold dfind. destruct (dget (map (add_rev l0) ms) (fk_dst fk)) as [m|] eqn:Hm; cbn [bind]; [|reflexivity].
      rewrite (@reverse_step_map ms l0 t fk m Hn Hm). apply IH. intros Hall. apply Hd. intros n fk' [He|Hin]; [|apply (Hall n); exact Hin].
      inversion He; subst. apply dget_Some_key in Hm. rewrite add_rev_keys in Hm. exact Hm. }
  destruct (Hgen l []) as [H1 H2]. rewrite Hmap0 in H1, H2. split; assumption.
Qed.

Lemma mirrors_In ms n rk : meta_ok ms ->
  In rk (mirrors (all_fks ms) n) <-> exists src m fk, In (src, m) ms /\ In fk (tm_fks m) /\ fk_dst fk = n /\ rk = mkFK (fk_dst_cols fk) src (fk_cols fk).
Proof.
  intros Hms. unfold mirrors. rewrite in_map_iff. split.
  - intros ([src fk] & <- & Hin). apply filter_In in Hin. cbn [fst snd] in *. destruct Hin as [Hin Hd]. apply (proj1 (eqb_true _ _)) in Hd.
    apply all_fks_In in Hin; [|exact Hms]. destruct Hin as (m & Hm & Hfk). exists src, m, fk. tauto.
  - intros (src & m & fk & Hm & Hfk & Hd & ->). exists (src, fk). split; [reflexivity|]. apply filter_In. split.
    + apply all_fks_In; [exact Hms|]. exists m. tauto.
    + apply eqb_true. exact Hd.
Qed.

(** * The graph of a metadata *)
Definition names_ok (ms : meta) : Prop := forall n, In n (dkeys ms) -> no_dot (fst n).

Lemma as_graph_raw ms ignore : meta_ok ms -> names_ok ms ->
  as_graph ms ignore = flat_map (fun m =>
    if memb (tm_name m) ignore then []
    else [(render (tm_name m),
           set_of (map (fun fk => render (fk_dst fk))
             (filter (fun fk => negb (memb (fk_dst fk) ignore) && dmem ms (fk_dst fk)) (tm_fks m))))])
    (dvals ms) /\ NoDup (dkeys (as_graph ms ignore)).
Proof.
  intros Hms Hnames. unfold as_graph. match goal with |- context [dict_of ?x] => set (l := x) end.
  assert (Hnd : NoDup (map fst l)).
  { assert (Hl : map fst l = map render (map tm_name (filter (fun m => negb (memb (tm_name m) ignore)) (dvals ms)))).
    { unfold l. generalize (tm_fks) as fks. intros fks. generalize (dmem ms) as p. intros p.
      induction (dvals ms) as [|m v IH]; [reflexivity|]. cbn [flat_map filter].
      rewrite map_app, IH. destruct (memb (tm_name m) ignore); reflexivity. }
    rewrite Hl. apply NoDup_map_inj.
    - intros x y Hx Hy. assert (Hz : forall z, In z (map tm_name (filter (fun m => negb (memb (tm_name m) ignore)) (dvals ms))) -> no_dot (fst z)).
      { intros z Hz. apply in_map_iff in Hz. destruct Hz as (m & <- & Hm). apply filter_In in Hm. destruct Hm as [Hm _].
        apply dvals_In in Hm. destruct Hm as [k Hm]. apply Hnames. rewrite (proj2 Hms _ _ Hm). apply in_map_iff. exists (k, m). tauto. }
      apply render_inj; apply Hz; assumption.
    - assert (Hnm : NoDup (map tm_name (dvals ms))).
      { unfold dvals. rewrite map_map. replace (map (fun x => tm_name (snd x)) ms) with (dkeys ms); [apply Hms|].
        unfold dkeys. apply map_ext_in. intros [n m] Hin. cbn. symmetry. apply Hms. exact Hin. }
      revert Hnm. generalize (dvals ms). clear. induction l as [|m v IH]; cbn [map filter]; [constructor|].
      intros Hn. apply NoDup_cons_iff in Hn. destruct Hn as [Ha Hn].
      destruct (negb (memb (tm_name m) ignore)); [|apply IH; exact Hn]. cbn [map]. constructor; [|apply IH; exact Hn].
      intros Hin. apply Ha. apply in_map_iff in Hin. destruct Hin as (x & <- & Hx). apply filter_In in Hx. apply in_map. apply Hx. }
  rewrite (dict_of_nodup Hnd). split; [reflexivity|exact Hnd].
Qed.

(** Nodes are the names of tables outside [ignore], edges the foreign keys between them. *)
Lemma as_graph_node ms ignore u : meta_ok ms -> names_ok ms ->
  node (as_graph ms ignore) u <-> exists n, u = render n /\ In n (dkeys ms) /\ ~ In n ignore.
Proof.
  intros Hms Hnames. unfold node. rewrite (proj1 (as_graph_raw ignore Hms Hnames)). unfold dkeys. rewrite in_map_iff. split.
  - intros ([k es] & <- & Hin). apply in_flat_map in Hin. destruct Hin as (m & Hm & Hin).
    destruct (memb (tm_name m) ignore) eqn:Em; [destruct Hin|]. destruct Hin as [He|[]]. inversion He; subst.
    apply (proj1 (memb_false _ _)) in Em. exists (tm_name m). split; [reflexivity|]. split; [|exact Em].
    apply dvals_In in Hm. destruct Hm as [k Hm]. apply in_map_iff. exists (k, m). split; [|exact Hm]. cbn. symmetry. apply Hms. exact Hm.
  - intros (n & -> & Hk & Hni). apply in_map_iff in Hk. destruct Hk as ([n' m] & Hnn & Hm). cbn in Hnn. subst n'.
    pose proof (proj2 Hms _ _ Hm) as Hnm.
    eexists. split; [|apply in_flat_map; exists m; split; [apply dvals_In; eexists; exact Hm|]].
    2:{ rewrite Hnm, (proj2 (memb_false _ _) Hni). left. reflexivity. }
    reflexivity.
Qed.
Lemma as_graph_edge ms ignore u v : meta_ok ms -> names_ok ms ->
  edge (as_graph ms ignore) u v <->
  exists n m fk, u = render n /\ v = render (fk_dst fk) /\ In (n, m) ms /\ In fk (tm_fks m) /\
    ~ In n ignore /\ ~ In (fk_dst fk) ignore /\ In (fk_dst fk) (dkeys ms).
Proof.
  intros Hms Hnames. unfold edge. rewrite (proj1 (as_graph_raw ignore Hms Hnames)). split.
  - intros (es & Hin & Hv). apply in_flat_map in Hin. destruct Hin as (m & Hm & Hin).
    destruct (memb (tm_name m) ignore) eqn:Em; [destruct Hin|]. destruct Hin as [He|[]]. inversion He; subst.
    apply (proj1 (memb_false _ _)) in Em. rewrite set_of_In in Hv. apply in_map_iff in Hv. destruct Hv as (fk & <- & Hfk).
    apply filter_In in Hfk. destruct Hfk as [Hfk Hc]. rewrite andb_true_iff, negb_true_iff in Hc. destruct Hc as [Hc1 Hc2].
    apply (proj1 (memb_false _ _)) in Hc1. apply (proj1 (dmem_true _ _)) in Hc2. apply dvals_In in Hm. destruct Hm as [k Hm].
    exists (tm_name m), m, fk. repeat split; try assumption. exact (meta_key_of Hms Hm).
  - intros (n & m & fk & -> & -> & Hm & Hfk & Hni & Hdi & Hdk). pose proof (proj2 Hms _ _ Hm) as Hnm.
    eexists. split; [apply in_flat_map; exists m; split; [apply dvals_In; eexists; exact Hm|]|].
    + rewrite Hnm, (proj2 (memb_false _ _) Hni). left. reflexivity.
    + rewrite set_of_In. apply in_map_iff. exists fk. split; [reflexivity|]. apply filter_In. split; [exact Hfk|].
      rewrite (proj2 (memb_false _ _) Hdi), (proj2 (dmem_true _ _) Hdk). reflexivity.
Qed.
Lemma as_graph_ok ms ignore : meta_ok ms -> names_ok ms -> graph_ok (as_graph ms ignore).
Proof.
  intros Hms Hnames. split; [apply as_graph_raw; assumption|]. split.
  - intros u es Hin. rewrite (proj1 (as_graph_raw ignore Hms Hnames)) in Hin. apply in_flat_map in Hin. destruct Hin as (m & Hm & Hin).
    destruct (memb (tm_name m) ignore); [destruct Hin|]. destruct Hin as [He|[]]. inversion He; subst. apply set_of_NoDup.
  - intros u v He. apply as_graph_edge in He; [|assumption|assumption]. destruct He as (n & m & fk & -> & -> & _ & _ & _ & Hd & Hk).
    apply as_graph_node; [assumption|assumption|]. exists (fk_dst fk). tauto.
Qed.
