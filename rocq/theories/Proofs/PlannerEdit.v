(** planner.py: the foreign keys after inference, ignore_fks and extra_fks (C22). *)
From Verif Require Import Model.Base Model.Value Model.Names Model.PlanModel Model.Metadata Model.Planner.
From Verif Require Import Spec.GraphSpec Spec.SchemaSpec Spec.SqlSem Spec.PlannerSpec.
From Verif Require Import Proofs.BaseFacts Proofs.NameFacts Proofs.MetadataFacts.
Set Implicit Arguments.
Unset Strict Implicit.

Lemma parse_Ok s n : parse s = Ok n <-> named s n.
Proof.
  unfold parse. rewrite <- parse_named. destruct (parse_table_name s); split; intros Hp; inversion Hp; reflexivity.
Qed.
Lemma parse_Err s e : parse s = Err e <-> e = PValueError RName /\ ~ exists n, named s n.
Proof.
  unfold parse. destruct (parse_table_name s) as [n|] eqn:Ep.
  - apply parse_named in Ep. split; [discriminate|]. intros [_ Hn]. exfalso. apply Hn. exists n. exact Ep.
  - split.
    + intros He. inversion He. split; [reflexivity|]. intros [n Hn]. apply parse_named in Hn. congruence.
    + intros [-> _]. reflexivity.
Qed.

(** Updating one entry of a dict. *)
Lemma dset_map {V} (d : dict tname V) k v (f : V -> V) : NoDup (dkeys d) -> dget d k = Some v ->
  dset d k (f v) = map (fun nv => (fst nv, if eqb (fst nv) k then f (snd nv) else snd nv)) d.
Proof.
  induction d as [|[n w] d IH]; cbn [dget dset map fst snd]; [discriminate|]. intros Hn Hg.
  cbn [dkeys map fst] in Hn. apply NoDup_cons_iff in Hn. destruct Hn as [Ha Hn].
  destruct (eq_dec k n) as [He|Hne].
  - inversion Hg; subst. rewrite eqb_refl. f_equal. rewrite <- (map_id d) at 1. apply map_ext_in. intros [n' w'] Hin. cbn [fst snd].
    rewrite (proj2 (eqb_false n' n)); [reflexivity|]. intros ->. apply Ha. apply in_map_iff. exists (n, w'). tauto.
  - rewrite (proj2 (eqb_false n k)) by congruence. f_equal. apply IH; assumption.
Qed.
Lemma map_no_key {V} (d : dict tname V) k (f : V -> V) : dget d k = None ->
  map (fun nv => (fst nv, if eqb (fst nv) k then f (snd nv) else snd nv)) d = d.
Proof.
  intros Hg. rewrite <- (map_id d) at 2. apply map_ext_in. intros [n v] Hin. cbn [fst snd].
  rewrite (proj2 (eqb_false n k)); [reflexivity|]. intros ->. apply (proj1 (dget_None _ _)) in Hg. apply Hg.
  apply in_map_iff. exists (k, v). tauto.
Qed.

Definition mapf (g : tname -> list fkey -> list fkey) (ms : meta) : meta :=
  map (fun nm => (fst nm, with_fks (snd nm) (g (fst nm) (tm_fks (snd nm))))) ms.
Lemma mapf_keys g ms : dkeys (mapf g ms) = dkeys ms.
Proof. unfold mapf, dkeys. rewrite map_map. reflexivity. Qed.
Lemma mapf_In g ms n m' : In (n, m') (mapf g ms) <-> exists m, In (n, m) ms /\ m' = with_fks m (g n (tm_fks m)).
Proof.
  unfold mapf. rewrite in_map_iff. split.
  - intros ([n0 m] & He & Hin). cbn [fst snd] in He. inversion He; subst. exists m. tauto.
  - intros (m & Hin & ->). exists (n, m). tauto.
Qed.
Lemma mapf_mapf g h ms : mapf h (mapf g ms) = mapf (fun n l => h n (g n l)) ms.
Proof. unfold mapf. rewrite map_map. reflexivity. Qed.
Lemma mapf_ext g h ms : (forall n m, In (n, m) ms -> g n (tm_fks m) = h n (tm_fks m)) -> mapf g ms = mapf h ms.
Proof. intros He. unfold mapf. apply map_ext_in. intros [n m] Hin. cbn [fst snd]. rewrite (He n m Hin). reflexivity. Qed.
Lemma mapf_id ms : mapf (fun _ l => l) ms = ms.
Proof. unfold mapf. rewrite <- map_id. apply map_ext. intros [n [t f r]]. reflexivity. Qed.
Lemma mapf_get g ms n : dget (mapf g ms) n = option_map (fun m => with_fks m (g n (tm_fks m))) (dget ms n).
Proof.
  induction ms as [|[k m] ms IH]; [reflexivity|]. cbn [mapf map dget fst snd].
  destruct (eq_dec n k) as [->|_]; [reflexivity|exact IH].
Qed.
Lemma mapf_ok g ms : meta_ok ms -> meta_ok (mapf g ms).
Proof.
  intros [Hn Hnm]. split; [rewrite mapf_keys; exact Hn|]. intros n m' Hin. apply mapf_In in Hin. destruct Hin as (m & Hin & ->).
  apply (Hnm _ _ Hin).
Qed.
Lemma update_mapf ms k m f : NoDup (dkeys ms) -> dget ms k = Some m ->
  dset ms k (with_fks m (f (tm_fks m))) = mapf (fun n l => if eqb n k then f l else l) ms.
Proof.
  intros Hn Hg. rewrite (@dset_map _ ms k m (fun m => with_fks m (f (tm_fks m))) Hn Hg). unfold mapf. apply map_ext.
  intros [n m']. cbn [fst snd]. destruct (eqb n k); [reflexivity|]. destruct m'. reflexivity.
Qed.
Lemma noop_mapf ms k f : dget ms k = None -> ms = mapf (fun n l => if eqb n k then f l else l) ms.
Proof.
  intros Hg. rewrite <- mapf_id at 1. apply mapf_ext. intros n m Hin. destruct (eqb n k) eqn:Ek; [|reflexivity].
  apply (proj1 (eqb_true _ _)) in Ek. subst n. exfalso. apply (proj1 (dget_None _ _)) in Hg. apply Hg. apply in_map_iff. exists (k, m). tauto.
Qed.

(** ** ignore_fks *)
Definition ignores (ab : string * string) (n d : tname) : bool :=
  eqb (parse_table_name (fst ab)) (Some n) && eqb (parse_table_name (snd ab)) (Some d).
Definition keepb (l : list (string * string)) (n : tname) (fk : fkey) : bool :=
  negb (existsb (fun ab => ignores ab n (fk_dst fk)) l).

Lemma ignores_true ab n d : ignores ab n d = true <-> named (fst ab) n /\ named (snd ab) d.
Proof. unfold ignores. rewrite andb_true_iff, !eqb_true, !parse_named. reflexivity. Qed.
Lemma keepb_true cfg n fk : keepb (c_ignore_fks cfg) n fk = true <-> ~ ignored_fk cfg n (fk_dst fk).
Proof.
  unfold keepb. rewrite negb_true_iff. split.
  - intros Hf (a & b & Hin & Ha & Hb). assert (Ht : existsb (fun ab => ignores ab n (fk_dst fk)) (c_ignore_fks cfg) = true); [|congruence].
    apply existsb_exists. exists (a, b). split; [exact Hin|]. apply ignores_true. tauto.
  - intros Hn. destruct (existsb _ _) eqn:Ee; [|reflexivity]. exfalso. apply Hn. apply existsb_exists in Ee.
    destruct Ee as ([a b] & Hin & Hi). apply ignores_true in Hi. exists a, b. tauto.
Qed.

Lemma filter_filter {A} (p q : A -> bool) l : filter p (filter q l) = filter (fun x => q x && p x) l.
Proof.
  induction l as [|a l IH]; [reflexivity|]. cbn [filter]. destruct (q a); cbn [andb filter]; [|exact IH].
  destruct (p a); rewrite IH; reflexivity.
Qed.
Lemma filter_all {A} (p : A -> bool) l : (forall x, In x l -> p x = true) -> filter p l = l.
Proof.
  induction l as [|a l IH]; intros Hp; [reflexivity|]. cbn [filter]. rewrite (Hp a (or_introl eq_refl)). f_equal.
  apply IH. intros x Hx. apply Hp. right. exact Hx.
Qed.

Lemma remove_loop l ms : NoDup (dkeys ms) ->
  (forall a b, In (a, b) l -> (exists n, named a n) /\ (exists n, named b n)) ->
  forM (fun ms sd =>
    let* src := parse (fst sd) in
    let* dst := parse (snd sd) in
    match dget ms src with
    | None => Ok ms
    | Some m => Ok (dset ms src (with_fks m (filter (fun fk => negb (eqb (fk_dst fk) dst)) (tm_fks m))))
    end) l ms = Ok (mapf (fun n => filter (keepb l n)) ms).
Proof.
  revert ms. induction l as [|[a b] l IH]; intros ms Hn Hv; cbn [forM].
  - f_equal. rewrite <- (mapf_id ms) at 1. apply mapf_ext. intros n m _. symmetry. apply filter_all. reflexivity.
  - destruct (Hv a b (or_introl eq_refl)) as [[src Hs] [dst Hd]]. cbn [fst snd].
    rewrite (proj2 (parse_Ok _ _) Hs), (proj2 (parse_Ok _ _) Hd). cbn [bind].
    set (f := filter (fun fk => negb (eqb (fk_dst fk) dst))).
    assert (He : match dget ms src with
                 | None => Ok ms
                 | Some m => Ok (dset ms src (with_fks m (f (tm_fks m))))
                 end = Ok (E := plan_exn) (mapf (fun n l => if eqb n src then f l else l) ms)).
    { destruct (dget ms src) as [m|] eqn:Eg; f_equal; [apply update_mapf; assumption|apply noop_mapf; exact Eg]. }
    rewrite He. cbn [bind]. rewrite IH.
    + f_equal. rewrite mapf_mapf. apply mapf_ext. intros n m _.
      assert (Hig : forall d, ignores (a, b) n d = eqb n src && eqb d dst).
      { intros d. apply eq_true_iff_eq. rewrite ignores_true, andb_true_iff, !eqb_true. cbn [fst snd]. split.
        - intros [H1 H2]. split; eapply named_fun; eassumption.
        - intros [-> ->]. tauto. }
      destruct (eqb n src) eqn:En.
      * unfold f. rewrite filter_filter. apply filter_ext. intros fk. unfold keepb. cbn [existsb]. rewrite Hig, negb_orb. reflexivity.
      * apply filter_ext. intros fk. unfold keepb. cbn [existsb]. rewrite Hig. reflexivity.
    + rewrite mapf_keys. exact Hn.
    + intros a' b' Hin. apply Hv. right. exact Hin.
Qed.
Lemma remove_ignore_ok cfg ms : NoDup (dkeys ms) ->
  (forall a b, In (a, b) (c_ignore_fks cfg) -> (exists n, named a n) /\ (exists n, named b n)) ->
  remove_ignore_fks cfg ms = Ok (mapf (fun n => filter (keepb (c_ignore_fks cfg) n)) ms).
Proof. apply remove_loop. Qed.

(** ** extra_fks *)
Definition extra_for (ms : meta) (n : tname) (x : extra_fk) : list fkey :=
  match parse_table_name (x_src x), parse_table_name (x_dst x) with
  | Some src, Some dst =>
      match dget ms src, dget ms dst with
      | Some m, Some md =>
          if eqb n src && subsetb (x_src_cols x) (tb_cols (tm_table m)) && subsetb (x_dst_cols x) (tb_cols (tm_table md))
          then [mkFK (x_src_cols x) dst (x_dst_cols x)] else []
      | _, _ => []
      end
  | _, _ => []
  end.
Lemma extra_for_ext ms ms' n x :
  (forall k, option_map tm_table (dget ms k) = option_map tm_table (dget ms' k)) -> extra_for ms n x = extra_for ms' n x.
Proof.
  intros He. unfold extra_for. destruct (parse_table_name (x_src x)) as [s|]; [|reflexivity]. destruct (parse_table_name (x_dst x)) as [d|]; [|reflexivity].
  pose proof (He s) as Hs. pose proof (He d) as Hd. destruct (dget ms s), (dget ms' s); inversion Hs; [|reflexivity].
  destruct (dget ms d), (dget ms' d); inversion Hd; [|reflexivity]. congruence.
Qed.

Lemma add_loop l : forall ms, NoDup (dkeys ms) ->
  (forall x, In x l -> (exists n, named (x_src x) n) /\ (exists n, named (x_dst x) n)) ->
  forM (fun ms x =>
    let* src := parse (x_src x) in
    let* dst := parse (x_dst x) in
    match dget ms src with
    | None => Ok ms
    | Some m =>
        if negb (subsetb (x_src_cols x) (tb_cols (tm_table m))) then Ok ms
        else match dget ms dst with
             | None => Ok ms
             | Some md =>
                 if negb (subsetb (x_dst_cols x) (tb_cols (tm_table md))) then Ok ms
                 else Ok (dset ms src (with_fks m (tm_fks m ++ [mkFK (x_src_cols x) dst (x_dst_cols x)])))
             end
    end) l ms = Ok (mapf (fun n fks => fks ++ flat_map (extra_for ms n) l) ms).
Proof.
  induction l as [|x l IH]; intros ms Hn Hv; cbn [forM].
  - f_equal. rewrite <- (mapf_id ms) at 1. apply mapf_ext. intros n m _. symmetry. apply app_nil_r.
  - destruct (Hv x (or_introl eq_refl)) as [[src Hs] [dst Hd]].
    rewrite (proj2 (parse_Ok _ _) Hs), (proj2 (parse_Ok _ _) Hd). cbn [bind].
    match goal with |- bind ?s _ = _ => assert (He : s = Ok (mapf (fun n fks => fks ++ extra_for ms n x) ms)) end.
    { assert (Hex : forall n, extra_for ms n x = match dget ms src, dget ms dst with
        | Some m, Some md => if eqb n src && subsetb (x_src_cols x) (tb_cols (tm_table m)) && subsetb (x_dst_cols x) (tb_cols (tm_table md))
             then [mkFK (x_src_cols x) dst (x_dst_cols x)] else [] | _, _ => [] end).
      { intros n. unfold extra_for. apply parse_named in Hs, Hd. rewrite Hs, Hd. reflexivity. }
      assert (Hno : (forall n, extra_for ms n x = []) -> ms = mapf (fun n fks => fks ++ extra_for ms n x) ms).
      { intros H0. rewrite <- mapf_id at 1. apply mapf_ext. intros n m _. rewrite H0, app_nil_r. reflexivity. }
      destruct (dget ms src) as [m|] eqn:Es.
      2:{ f_equal. apply Hno. exact Hex. }
      destruct (subsetb (x_src_cols x) (tb_cols (tm_table m))) eqn:Ec; cbn [negb].
      2:{ f_equal. apply Hno. intros n. rewrite Hex. destruct (dget ms dst); [|reflexivity]. rewrite andb_false_r. reflexivity. }
      destruct (dget ms dst) as [md|] eqn:Ed.
      2:{ f_equal. apply Hno. exact Hex. }
      destruct (subsetb (x_dst_cols x) (tb_cols (tm_table md))) eqn:Ec2; cbn [negb].
      2:{ f_equal. apply Hno. intros n. rewrite Hex, !andb_false_r. reflexivity. }
      f_equal. rewrite (@update_mapf ms src m (fun l => l ++ [mkFK (x_src_cols x) dst (x_dst_cols x)]) Hn Es).
      apply mapf_ext. intros n m' _. rewrite Hex, !andb_true_r. destruct (eqb n src); [reflexivity|rewrite app_nil_r; reflexivity]. }
    rewrite He. cbn [bind]. rewrite IH.
    + f_equal. rewrite mapf_mapf. apply mapf_ext. intros n m _. cbn [flat_map]. rewrite app_assoc. f_equal.
      apply flat_map_ext. intros y. apply extra_for_ext. intros k. rewrite mapf_get. destruct (dget ms k); reflexivity.
    + rewrite mapf_keys. exact Hn.
    + intros y Hy. apply Hv. right. exact Hy.
Qed.
Lemma add_extra_ok cfg ms : NoDup (dkeys ms) ->
  (forall x, In x (c_extra_fks cfg) -> (exists n, named (x_src x) n) /\ (exists n, named (x_dst x) n)) ->
  add_extra_fks cfg ms = Ok (mapf (fun n fks => fks ++ flat_map (extra_for ms n) (c_extra_fks cfg)) ms).
Proof. apply add_loop. Qed.

(** An ill-formed name makes the whole step raise. *)
Lemma forM_bad {E S A} (f : S -> A -> res E S) (bad : A -> Prop) e l : forall s,
  (forall s a, bad a -> f s a = Err e) -> (forall s a, ~ bad a -> exists s', f s a = Ok s') -> (forall a, bad a \/ ~ bad a) ->
  (exists a, In a l /\ bad a) -> forM f l s = Err e.
Proof.
  induction l as [|a l IH]; intros s Hb Hg Hd (b & Hin & Hbad); [destruct Hin|]. cbn [forM].
  destruct (Hd a) as [Ha|Ha]; [rewrite (Hb s a Ha); reflexivity|]. destruct (Hg s a Ha) as [s' ->]. cbn [bind].
  apply IH; try assumption. destruct Hin as [<-|Hin]; [contradiction|]. exists b. tauto.
Qed.
Lemma named_dec s : (exists n, named s n) \/ ~ exists n, named s n.
Proof.
  destruct (parse_table_name s) as [n|] eqn:Ep; [left; exists n; apply parse_named; exact Ep|].
  right. intros [n Hn]. apply parse_named in Hn. congruence.
Qed.

Definition infer_of (cfg : config) (ms : meta) : meta :=
  match c_infer cfg with
  | InferNone => ms
  | InferSchema => infer_missing_foreign_keys false ms
  | InferAll => infer_missing_foreign_keys true ms
  end.
Lemma infer_of_ok cfg ms : meta_ok ms -> meta_ok (infer_of cfg ms).
Proof. intros Hms. unfold infer_of. destruct (c_infer cfg); [exact Hms|apply infer_ok; exact Hms|apply infer_ok; exact Hms]. Qed.
Lemma infer_of_keys cfg ms : dkeys (infer_of cfg ms) = dkeys ms.
Proof. unfold infer_of. destruct (c_infer cfg); [reflexivity|apply infer_keys|apply infer_keys]. Qed.
Lemma infer_of_tables cfg ms k : option_map tm_table (dget (infer_of cfg ms) k) = option_map tm_table (dget ms k).
Proof.
  unfold infer_of. destruct (c_infer cfg); [reflexivity| |]; unfold infer_missing_foreign_keys;
    generalize (pk_map false (dvals ms)), (pk_map true (dvals ms)); intros p1 p2; (induction ms as [|[n m] ms IH]; [reflexivity|]);
    cbn [map dget fst snd]; (destruct (eq_dec k n); [reflexivity|exact IH]).
Qed.

Theorem edit_fks_ok cfg ms : NoDup (dkeys ms) ->
  (forall a b, In (a, b) (c_ignore_fks cfg) -> (exists n, named a n) /\ (exists n, named b n)) ->
  (forall x, In x (c_extra_fks cfg) -> (exists n, named (x_src x) n) /\ (exists n, named (x_dst x) n)) ->
  edit_fks cfg ms = Ok (mapf (fun n fks => filter (keepb (c_ignore_fks cfg) n) fks ++ flat_map (extra_for ms n) (c_extra_fks cfg)) (infer_of cfg ms)).
Proof.
  intros Hn Hi Hx. unfold edit_fks. fold (infer_of cfg ms).
  rewrite (@remove_ignore_ok cfg (infer_of cfg ms)) by (try rewrite infer_of_keys; assumption). cbn [bind].
  rewrite add_extra_ok; [|rewrite mapf_keys, infer_of_keys; exact Hn|exact Hx].
  f_equal. rewrite mapf_mapf. apply mapf_ext. intros n m _. f_equal. apply flat_map_ext. intros x. apply extra_for_ext.
  intros k. rewrite mapf_get, <- (infer_of_tables cfg). destruct (dget (infer_of cfg ms) k); reflexivity.
Qed.

Lemma edit_fks_bad cfg ms :
  ~ ((forall a b, In (a, b) (c_ignore_fks cfg) -> (exists n, named a n) /\ (exists n, named b n)) /\
     (forall x, In x (c_extra_fks cfg) -> (exists n, named (x_src x) n) /\ (exists n, named (x_dst x) n))) ->
  edit_fks cfg ms = Err (PValueError RName).
Proof.
  intros Hbad. unfold edit_fks. fold (infer_of cfg ms). generalize (infer_of cfg ms). clear ms. intros ms.
  set (badi := fun ab : string * string => ~ ((exists n, named (fst ab) n) /\ (exists n, named (snd ab) n))).
  set (badx := fun x : extra_fk => ~ ((exists n, named (x_src x) n) /\ (exists n, named (x_dst x) n))).
  assert (Hdi : forall ab, badi ab \/ ~ badi ab). { intros ab. unfold badi. destruct (named_dec (fst ab)), (named_dec (snd ab)); tauto. }
  assert (Hdx : forall x, badx x \/ ~ badx x). { intros x. unfold badx. destruct (named_dec (x_src x)), (named_dec (x_dst x)); tauto. }
  assert (Hlist : forall {A} (bad : A -> Prop) (l : list A), (forall a, bad a \/ ~ bad a) -> (exists a, In a l /\ bad a) \/ forall a, In a l -> ~ bad a).
  { intros A bad l Hd. induction l as [|a l IH]; [right; intros a []|]. destruct (Hd a) as [Ha|Ha]; [left; exists a; split; [left; reflexivity|exact Ha]|].
    destruct IH as [(b & Hb & Hbb)|IH]; [left; exists b; split; [right; exact Hb|exact Hbb]|]. right. intros b [<-|Hb]; [exact Ha|apply IH; exact Hb]. }
  assert (Hnn : forall s s', ~ ~ ((exists n, named s n) /\ (exists n, named s' n)) -> (exists n, named s n) /\ exists n, named s' n).
  { intros s s' Hq. destruct (named_dec s), (named_dec s'); tauto. }
  destruct (Hlist _ badi (c_ignore_fks cfg) Hdi) as [Hi|Hi].
  - unfold remove_ignore_fks. rewrite (@forM_bad _ _ _ _ badi (PValueError RName)); [reflexivity| | |exact Hdi|exact Hi].
    + intros s [a b] Hb. unfold badi in Hb. cbn [fst snd] in *. destruct (parse a) as [src|e] eqn:Ea.
      * apply parse_Ok in Ea. destruct (parse b) as [dst|e] eqn:Eb.
        -- apply parse_Ok in Eb. exfalso. apply Hb. split; eexists; eassumption.
        -- apply parse_Err in Eb. cbn [bind]. destruct Eb as [-> _]. reflexivity.
      * apply parse_Err in Ea. cbn [bind]. destruct Ea as [-> _]. reflexivity.
    + intros s [a b] Hb. unfold badi in Hb. cbn [fst snd] in *. apply Hnn in Hb. destruct Hb as [[src Hs] [dst Hd]].
      rewrite (proj2 (parse_Ok _ _) Hs), (proj2 (parse_Ok _ _) Hd). cbn [bind]. destruct (dget s src); eexists; reflexivity.
  - assert (Hr : forall ms, exists ms', remove_ignore_fks cfg ms = Ok ms').
    { unfold remove_ignore_fks. clear Hbad. revert Hi. induction (c_ignore_fks cfg) as [|[a b] l IH]; intros Hi ms0; [exists ms0; reflexivity|].
      cbn [forM fst snd]. specialize (Hi (a, b) (or_introl eq_refl)) as Hab. unfold badi in Hab. cbn [fst snd] in Hab. apply Hnn in Hab.
      destruct Hab as [[src Hs] [dst Hd]]. rewrite (proj2 (parse_Ok _ _) Hs), (proj2 (parse_Ok _ _) Hd). cbn [bind].
      destruct (dget ms0 src); cbn [bind]; apply IH; intros y Hy; apply Hi; right; exact Hy. }
    destruct (Hr ms) as [ms' ->]. cbn [bind].
    destruct (Hlist _ badx (c_extra_fks cfg) Hdx) as [Hx|Hx].
    + unfold add_extra_fks. rewrite (@forM_bad _ _ _ _ badx (PValueError RName)); [reflexivity| | |exact Hdx|exact Hx].
      * intros s x Hb. unfold badx in Hb. destruct (parse (x_src x)) as [src|e] eqn:Ea.
        -- apply parse_Ok in Ea. destruct (parse (x_dst x)) as [dst|e] eqn:Eb.
           ++ apply parse_Ok in Eb. exfalso. apply Hb. split; eexists; eassumption.
           ++ apply parse_Err in Eb. cbn [bind]. destruct Eb as [-> _]. reflexivity.
        -- apply parse_Err in Ea. cbn [bind]. destruct Ea as [-> _]. reflexivity.
      * intros s x Hb. unfold badx in Hb. apply Hnn in Hb. destruct Hb as [[src Hs] [dst Hd]].
        rewrite (proj2 (parse_Ok _ _) Hs), (proj2 (parse_Ok _ _) Hd). cbn [bind].
        destruct (dget s src) as [m|]; [|eexists; reflexivity]. destruct (negb _); [eexists; reflexivity|].
        destruct (dget s dst); [|eexists; reflexivity]. destruct (negb _); eexists; reflexivity.
    + exfalso. apply Hbad. split.
      * intros a b Hin. apply Hnn. exact (Hi (a, b) Hin).
      * intros x Hin. apply Hnn. exact (Hx x Hin).
Qed.

Lemma list_dec {A} (P : A -> Prop) (l : list A) : (forall a, P a \/ ~ P a) -> (forall a, In a l -> P a) \/ ~ (forall a, In a l -> P a).
Proof.
  intros Hd. induction l as [|a l IH]; [left; intros a []|]. destruct (Hd a) as [Ha|Ha].
  - destruct IH as [IH|IH]; [left; intros b [<-|Hb]; [exact Ha|apply IH; exact Hb]|].
    right. intros Hall. apply IH. intros b Hb. apply Hall. right. exact Hb.
  - right. intros Hall. apply Ha. apply Hall. left. reflexivity.
Qed.
Definition edit_valid (cfg : config) : Prop :=
  (forall a b, In (a, b) (c_ignore_fks cfg) -> (exists n, named a n) /\ (exists n, named b n)) /\
  (forall x, In x (c_extra_fks cfg) -> (exists n, named (x_src x) n) /\ (exists n, named (x_dst x) n)).
Lemma edit_valid_dec cfg : edit_valid cfg \/ ~ edit_valid cfg.
Proof.
  unfold edit_valid.
  destruct (@list_dec _ (fun ab => (exists n, named (fst ab) n) /\ (exists n, named (snd ab) n)) (c_ignore_fks cfg)) as [Hi|Hi].
  - intros [a b]. cbn [fst snd]. destruct (named_dec a), (named_dec b); tauto.
  - destruct (@list_dec _ (fun x => (exists n, named (x_src x) n) /\ (exists n, named (x_dst x) n)) (c_extra_fks cfg)) as [Hx|Hx].
    + intros x. destruct (named_dec (x_src x)), (named_dec (x_dst x)); tauto.
    + left. split; [intros a b Hab; exact (Hi (a, b) Hab)|exact Hx].
    + right. intros [_ H2]. exact (Hx H2).
  - right. intros [H1 _]. apply Hi. intros [a b] Hab. apply H1. exact Hab.
Qed.
