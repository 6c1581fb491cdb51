(** Reading configuration data. *)
From Verif Require Import Model.Base Model.Value Model.PlanModel Model.Metadata Model.Planner Model.Filters Model.Multiply Model.Materialize
  Model.Dest Model.Output Model.Config Model.PlanIO Model.ConfigIO Model.Main.
From Verif Require Import Spec.PlannerSpec Spec.ConfigSpec Spec.CliSpec Proofs.BaseFacts Proofs.ConfigFacts Proofs.PlanIOFacts.
Set Implicit Arguments.
Unset Strict Implicit.
Open Scope string_scope.
Open Scope list_scope.

Ltac opens H := repeat (apply (proj1 (bind_Ok _ _ _)) in H; let x := fresh "x" in let E := fresh "E" in destruct H as (x & E & H)).

Lemma only_inv names m u : only names m = Ok u -> forall k v, In (k, v) m -> In k names.
Proof.
  unfold only. destruct (forallb _ m) eqn:E; [|discriminate]. intros _ k v H. rewrite forallb_forall in E. apply E in H. cbn in H. now apply memb_true in H.
Qed.
Lemma optional_some A (f : data -> lres A) a0 m k a d : optional f a0 m k = Ok a -> dget m k = Some d -> f d = Ok a.
Proof. unfold optional. intros H E. rewrite E in H. exact H. Qed.
Lemma field_some A (f : data -> lres A) m k a d : field_of f m k = Ok a -> dget m k = Some d -> f d = Ok a.
Proof. unfold field_of, required, lookup. intros H E. rewrite E in H. exact H. Qed.
Lemma nullable_some A (f : data -> lres A) d a m : nullable f d = Ok a -> d = DMap m -> exists b, f d = Ok b /\ a = Some b.
Proof. intros H ->. cbn in H. opens H. inv H. eauto. Qed.
Lemma dict_some A (f : data -> lres A) m l k d : as_dict f (DMap m) = Ok l -> In (k, d) m -> exists a, f d = Ok a /\ In (k, a) l.
Proof.
  cbn. intros H HI. apply mapM_Ok in H. induction H as [|[k' d'] y m l H1 H IH]; [destruct HI|]. destruct HI as [HI|HI].
  - inv HI. cbn in H1. opens H1. inv H1. exists x. split; [exact E|left; reflexivity].
  - destruct (IH HI) as (a & Ha & Hi). exists a. split; [exact Ha|right; exact Hi].
Qed.
Lemma list_some A (f : data -> lres A) ds l d : as_list f (DList ds) = Ok l -> In d ds -> exists a, f d = Ok a /\ In a l.
Proof.
  cbn. intros H HI. apply mapM_Ok in H. induction H as [|d' y m l H1 H IH]; [destruct HI|]. destruct HI as [->|HI].
  - exists y. split; [exact H1|left; reflexivity].
  - destruct (IH HI) as (a & Ha & Hi). exists a. split; [exact Ha|right; exact Hi].
Qed.

(** A loader that knows the options at the positions below it. *)
Definition strict (A : Type) (f : data -> lres A) (w : list step) (names : list string) : Prop :=
  forall d a m k v, f d = Ok a -> found d w m -> In (k, v) m -> In k names.

Ltac here := intros d a m k v H F; inversion F; subst; cbv beta delta [load_target load_ignore_fk load_extra_fk load_constraint load_remap load_planner load_mult load_compact load_sampler load_config] in H;
  cbn [as_map] in H; opens H; repeat match goal with X : Ok _ = Ok _ |- _ => injection X as <- end;
  match goal with X : only _ _ = Ok _ |- _ => exact (only_inv X (k := k) (v := v)) end.
Lemma strict_target : strict load_target [] ["all"; "percent"; "amount"; "like"; "in"; "sql"]. Proof. here. Qed.
Lemma strict_ignore_fk : strict load_ignore_fk [] ["src_table"; "dst_table"]. Proof. here. Qed.
Lemma strict_extra_fk : strict load_extra_fk [] ["src_table"; "src_columns"; "dst_table"; "dst_columns"]. Proof. here. Qed.
Lemma strict_constraint : strict load_constraint [] ["column"; "operator"; "value"]. Proof. here. Qed.
Lemma strict_remap : strict load_remap [] ["search"; "replace"]. Proof. here. Qed.
Lemma strict_mult : strict load_mult [] ["multiplier"; "ignore_tables"; "extra_columns"; "ignore_primary_key_columns"]. Proof. here. Qed.
Lemma strict_compact : strict load_compact [] ["primary_keys"; "auto_increment_keys"; "columns"; "start_key"]. Proof. here. Qed.
Lemma strict_planner : strict load_planner [] ["table_constraints"; "select"; "targets"; "ignore"; "passthrough"; "ignore_fks"; "extra_fks"; "infer_foreign_keys"; "include_dependencies"]. Proof. here. Qed.
Lemma strict_sampler : strict load_sampler [] ["output"; "filters"; "multiplicity"; "infer_foreign_keys"; "compact"]. Proof. here. Qed.
Lemma strict_config : strict load_config [] ["source"; "planner"; "sampler"]. Proof. here. Qed.

Lemma strict_list A (f : data -> lres A) w names : strict f w names -> strict (as_list f) (Element :: w) names.
Proof. intros Hs d a m k v H F HI. inversion F as [|? ? ? ? ? ? ?|? ? ? ? ? ? ?|? ? ? ? Hin HF]; subst. destruct (list_some H Hin) as (b & Hb & _). exact (Hs _ _ _ _ _ Hb HF HI). Qed.
Lemma strict_dict A (f : data -> lres A) w names : strict f w names -> strict (as_dict f) (Each :: w) names.
Proof. intros Hs d a m k v H F HI. inversion F as [|? ? ? ? ? ? ?|? ? ? ? ? Hin HF|? ? ? ? ? ?]; subst. destruct (dict_some H Hin) as (b & Hb & _). exact (Hs _ _ _ _ _ Hb HF HI). Qed.
Lemma found_not_null w m : ~ found DNull w m.
Proof. intros H. inversion H. Qed.
Lemma strict_nullable A (f : data -> lres A) w names : strict f w names -> strict (nullable f) w names.
Proof. intros Hs d a m k v H F HI. destruct d; cbn in H; [destruct (found_not_null F)|..]; opens H; exact (Hs _ _ _ _ _ E F HI). Qed.

Ltac under X tac := intros d a m k v H F; inversion F as [|m0 k0 d0 w0 m1 Hd HF|? ? ? ? ? ? ?|? ? ? ? ? ?]; subst; cbv beta delta [load_planner load_sampler load_config] in H;
  cbn [as_map] in H; opens H; repeat match goal with Y : Ok _ = Ok _ |- _ => injection Y as <- end;
  match goal with
  | Y : optional _ _ _ X = Ok _ |- _ => refine (tac _ _ _ _ _ (optional_some Y Hd) HF)
  | Y : field_of _ _ X = Ok _ |- _ => refine (tac _ _ _ _ _ (field_some Y Hd) HF)
  end.
Lemma strict_targets : strict load_planner [Key "targets"; Each] ["all"; "percent"; "amount"; "like"; "in"; "sql"].
Proof. under "targets" (strict_dict strict_target). Qed.
Lemma strict_constraints : strict load_planner [Key "table_constraints"; Each; Element] ["column"; "operator"; "value"].
Proof. under "table_constraints" (strict_dict (strict_list strict_constraint)). Qed.
Lemma strict_ignores : strict load_planner [Key "ignore_fks"; Element] ["src_table"; "dst_table"].
Proof. under "ignore_fks" (strict_list strict_ignore_fk). Qed.
Lemma strict_extras : strict load_planner [Key "extra_fks"; Element] ["src_table"; "src_columns"; "dst_table"; "dst_columns"].
Proof. under "extra_fks" (strict_list strict_extra_fk). Qed.
Lemma strict_mults : strict load_sampler [Key "multiplicity"] ["multiplier"; "ignore_tables"; "extra_columns"; "ignore_primary_key_columns"].
Proof. under "multiplicity" strict_mult. Qed.
Lemma strict_compacts : strict load_sampler [Key "compact"] ["primary_keys"; "auto_increment_keys"; "columns"; "start_key"].
Proof. under "compact" strict_compact. Qed.
Lemma strict_output : strict load_output [Key "remap"; Element] ["search"; "replace"].
Proof.
  intros d a m k v H F HI. inversion F as [|m0 k0 d0 w0 m1 Hd HF|? ? ? ? ? ? ?|? ? ? ? ? ?]; subst. unfold load_output in H. cbn [as_map] in H. cbn [bind] in H. apply (proj1 (bind_Ok _ _ _)) in H. destruct H as (mode & _ & H).
  destruct (String.eqb mode "directory").
  - opens H. exfalso. assert (In "remap" ["mode"; "directory"]) as X by exact (only_inv E (dget_In Hd)). cbn in X. intuition discriminate.
  - destruct (String.eqb mode "database"); [|discriminate]. opens H. exact (strict_list strict_remap (optional_some E0 Hd) HF HI).
Qed.
Lemma strict_remaps : strict load_sampler [Key "output"; Key "remap"; Element] ["search"; "replace"].
Proof. under "output" strict_output. Qed.
Lemma strict_under_planner w names : strict load_planner w names -> strict load_config (Key "planner" :: w) names.
Proof. intros Hs. under "planner" (strict_nullable Hs). Qed.
Lemma strict_under_sampler w names : strict load_sampler w names -> strict load_config (Key "sampler" :: w) names.
Proof. intros Hs. under "sampler" (strict_nullable Hs). Qed.

(** C88 *)
Theorem known_options d c w names m k v : load_config d = Ok c -> In (w, names) options -> found d w m -> In (k, v) m -> In k names.
Proof.
  intros H HI. revert d c m k v H. change (strict load_config w names). cbn [options In] in HI.
  repeat (destruct HI as [HI|HI]; [injection HI as <- <-|]); [..|destruct HI].
  - exact strict_config.
  - exact (strict_under_planner strict_planner).
  - exact (strict_under_planner strict_targets).
  - exact (strict_under_planner strict_constraints).
  - exact (strict_under_planner strict_ignores).
  - exact (strict_under_planner strict_extras).
  - exact (strict_under_sampler strict_sampler).
  - exact (strict_under_sampler strict_mults).
  - exact (strict_under_sampler strict_compacts).
  - exact (strict_under_sampler strict_remaps).
Qed.

(** ** Accepted configurations *)
Lemma dict_keys A (f : data -> lres A) m l : as_dict f (DMap m) = Ok l -> dkeys l = dkeys m.
Proof.
  cbn. intros H. apply mapM_Ok in H. induction H as [|[k d] y m l H1 H IH]; [reflexivity|]. cbn in H1. opens H1. inv H1. cbn. unfold dkeys in IH. now rewrite IH.
Qed.
Lemma well_formed_dget d m k v : well_formed d -> d = DMap m -> dget m k = Some v -> well_formed v.
Proof. intros W -> H. exact (proj2 (well_formed_map W) k v H). Qed.
Lemma dict_nodup A (f : data -> lres A) d l : as_dict f d = Ok l -> well_formed d -> NoDup (dkeys l).
Proof. destruct d; try discriminate. intros H W. rewrite (dict_keys H). exact (proj1 (well_formed_map W)). Qed.
Lemma planner_valid d pc : load_planner d = Ok pc -> well_formed d -> config_ok pc /\ extras_valid pc.
Proof.
  intros H W. unfold load_planner in H. apply (proj1 (bind_Ok _ _ _)) in H. destruct H as (m & Hm & H). destruct d as [| | | | | |m0]; try discriminate. injection Hm as ->. opens H. inv H. split.
  - split; cbn.
    + unfold field_of, required, lookup in E2. destruct (dget m "targets") as [d|] eqn:Ed; [|discriminate]. exact (dict_nodup E2 (well_formed_dget W eq_refl Ed)).
    + unfold optional in E0. destruct (dget m "table_constraints") as [d|] eqn:Ed; [exact (dict_nodup E0 (well_formed_dget W eq_refl Ed))|]. inv E0. constructor.
  - intros fk Hx. cbn in Hx. unfold optional in E6. destruct (dget m "extra_fks") as [d|] eqn:Ed; [|inv E6; destruct Hx]. destruct d as [| | | | |l|]; try discriminate. cbn in E6. apply mapM_Ok in E6.
    destruct (Forall2_In_r E6 Hx) as (d & _ & Hd). unfold load_extra_fk in Hd. opens Hd.
    destruct (check_columns_match _ _) as [[]|] eqn:Ec; [|discriminate]. inv Hd. cbn. apply (proj1 (check_columns_spec _ _)) in Ec. split; [apply Ec|]. apply Ec.
Qed.
Lemma merge_well_formed d1 d2 : well_formed d1 -> well_formed d2 -> well_formed (dict_merge d1 d2).
Proof.
  revert d1. induction d2 using data_ind'; intros d1 W1 W2; try (rewrite dict_merge_other by (intros (_ & (? & ?)); discriminate); exact W2).
  destruct (mapping_dec d1) as [(l & ->)|N]; [|rewrite dict_merge_other by tauto; exact W2].
  rewrite dict_merge_maps. inversion W2 as [m0 ND WV E|? N E]; subst; [|destruct N; eexists; reflexivity]. clear W2.
  inversion W1 as [l0 NDl WVl E|? N E]; subst; [|destruct N; eexists; reflexivity]. clear W1.
  revert l NDl WVl. induction m as [|[k v] m IH]; intros l NDl WVl; [constructor; assumption|]. cbn [merge_into].
  inversion H as [|? ? Hv Hm]; subst. cbn in ND. inversion ND; subst. apply IH.
  - exact Hm.
  - assumption.
  - intros k' v' HI. apply (WV k' v'). right. exact HI.
  - apply dset_NoDup. exact NDl.
  - intros k' v' HI. assert (Hg : dget (dset l k match dget l k with Some old => dict_merge old v | None => v end) k' = Some v').
    { apply In_dget; [apply dset_NoDup; exact NDl|exact HI]. }
    rewrite dget_dset in Hg. destruct (eq_dec k' k) as [Ek|Ek].
    + injection Hg as <-. destruct (dget l k) as [old|] eqn:Eo; [apply Hv; [apply (WVl k old); exact (dget_In Eo)|]|]; apply (WV k v); left; reflexivity.
    + apply (WVl k' v'). exact (dget_In Hg).
Qed.
Lemma merged_well_formed ds : Forall well_formed ds -> well_formed (merged ds).
Proof.
  unfold merged. assert (G : forall l d, well_formed d -> Forall well_formed l -> well_formed (fold_left dict_merge l d)).
  { induction l as [|x l IH]; intros d W F; [exact W|]. inversion F; subst. cbn. apply IH; [now apply merge_well_formed|assumption]. }
  intros F. apply G; [|exact F]. constructor; [constructor|intros k v []].
Qed.
Theorem accepted_planner ds c pc : Forall well_formed ds -> load_config (merged ds) = Ok c -> sub_planner c = Some pc -> config_ok pc /\ extras_valid pc.
Proof.
  intros F H Hpc. assert (W := merged_well_formed F). unfold load_config in H. apply (proj1 (bind_Ok _ _ _)) in H. destruct H as (m & Hm & H).
  destruct (merged ds) as [| | | | | |m0] eqn:Em; try discriminate. injection Hm as ->. opens H. inv H. cbn in Hpc. subst x1. unfold optional in E1. destruct (dget m "planner") as [d|] eqn:Ed; [|discriminate].
  assert (Wd := well_formed_dget W eq_refl Ed). destruct d; cbn in E1; try discriminate; opens E1; inv E1. exact (planner_valid (d := DMap _) E3 Wd).
Qed.

(** ** Defaults *)
Lemma only_app names m k v : In k names -> only names (m ++ [(k, v)]) = only names m.
Proof. intros H. unfold only. rewrite forallb_app. cbn. rewrite (proj2 (memb_true _ _) H). cbn. now rewrite andb_true_r. Qed.
Lemma optional_other A (f : data -> lres A) a0 m k v n : n <> k -> optional f a0 (m ++ [(k, v)]) n = optional f a0 m n.
Proof. intros H. unfold optional. rewrite dget_app. destruct (dget m n); [reflexivity|]. cbn [dget]. destruct (eq_dec n k); [contradiction|reflexivity]. Qed.
Lemma optional_default A (f : data -> lres A) a0 m k v : dget m k = None -> f v = Ok a0 -> optional f a0 (m ++ [(k, v)]) k = optional f a0 m k.
Proof. intros H E. unfold optional. rewrite dget_app, H. cbn [dget]. destruct (eq_dec k k); [exact E|contradiction]. Qed.
Lemma field_other A (f : data -> lres A) m k v n : n <> k -> field_of f (m ++ [(k, v)]) n = field_of f m n.
Proof. intros H. unfold field_of, required, lookup. rewrite dget_app. destruct (dget m n); [reflexivity|]. cbn [dget]. destruct (eq_dec n k); [contradiction|reflexivity]. Qed.
Ltac default :=
  cbn [as_map bind]; rewrite ?only_app by (cbn; tauto);
  repeat (rewrite optional_default by (assumption || reflexivity));
  rewrite ?optional_other, ?field_other by discriminate; reflexivity.
Ltac defaults HI H := cbn [In planner_defaults target_defaults sampler_defaults output_defaults mult_defaults compact_defaults] in HI;
  repeat (destruct HI as [HI|HI]; [injection HI as <- <-; default|]); destruct HI.

Theorem planner_default m k v : In (k, v) planner_defaults -> dget m k = None -> load_planner (DMap (m ++ [(k, v)])) = load_planner (DMap m).
Proof. intros HI H. unfold load_planner. defaults HI H. Qed.
Theorem target_default m k v : In (k, v) target_defaults -> dget m k = None -> load_target (DMap (m ++ [(k, v)])) = load_target (DMap m).
Proof. intros HI H. unfold load_target. defaults HI H. Qed.
Theorem sampler_default m k v : In (k, v) sampler_defaults -> dget m k = None -> load_sampler (DMap (m ++ [(k, v)])) = load_sampler (DMap m).
Proof. intros HI H. unfold load_sampler. defaults HI H. Qed.
Theorem mult_default m k v : In (k, v) mult_defaults -> dget m k = None -> load_mult (DMap (m ++ [(k, v)])) = load_mult (DMap m).
Proof. intros HI H. unfold load_mult. defaults HI H. Qed.
Theorem compact_default m k v : In (k, v) compact_defaults -> dget m k = None -> load_compact (DMap (m ++ [(k, v)])) = load_compact (DMap m).
Proof. intros HI H. unfold load_compact. defaults HI H. Qed.
Theorem output_default m k v : In (k, v) output_defaults -> dget m k = None -> dget m "mode" = Some (DStr "database") ->
  load_output (DMap (m ++ [(k, v)])) = load_output (DMap m).
Proof.
  intros HI H Hm. unfold load_output. cbn [as_map bind]. unfold field_of at 1 3, required, lookup. rewrite dget_app, Hm. cbn [as_str bind].
  change (String.eqb "database" "directory") with false. change (String.eqb "database" "database") with true. cbv iota. unfold load_database. defaults HI H.
Qed.
Theorem no_planner_no_sampler m k v : In (k, v) [("planner", DNull); ("sampler", DNull); ("source", DMap [])] -> dget m k = None ->
  load_config (DMap (m ++ [(k, v)])) = load_config (DMap m).
Proof. intros HI H. unfold load_config. defaults HI H. Qed.
