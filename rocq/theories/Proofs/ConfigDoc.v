(** What a configuration file says is what is used. *)
From Verif Require Import Model.Base Model.Value Model.PlanModel Model.Metadata Model.Planner Model.Filters Model.Multiply Model.Materialize
  Model.Dest Model.Output Model.Config Model.PlanIO Model.ConfigIO.
From Verif Require Import Spec.ConfigDocSpec Proofs.BaseFacts Proofs.Scalars Proofs.ConfigFacts Proofs.ConfigLoad.
Set Implicit Arguments.
Unset Strict Implicit.
Open Scope string_scope.
Open Scope list_scope.

(** Loader and document belong together. *)
Class good (A : Type) (f : data -> lres A) (w : A -> doc) : Prop := good_is : forall d a, f d = Ok a -> agrees d (w a) /\ f (plain (w a)) = Ok a.

#[local] Ltac leaf := intros d a H; destruct d; try discriminate H; cbn in H; injection H as <-; (split; [apply agrees_leaf|reflexivity]).
#[export] Instance good_str : good as_str text. Proof. leaf. Qed.
#[export] Instance good_bool : good as_bool flag. Proof. intros d a H. split; [now apply agrees_flag, as_bool_ok|reflexivity]. Qed.
#[export] Instance good_int : good as_int number. Proof. intros d a H. split; [now apply agrees_number, as_int_ok|reflexivity]. Qed.
#[export] Instance good_float : good as_float decimal. Proof. intros d a H. split; [now apply agrees_decimal, as_float_ok|reflexivity]. Qed.
#[local] Ltac val := intros d a H; destruct d as [|[|]| | | | |]; try discriminate H; cbn in H; injection H as <-;
  (split; [first [apply agrees_value|apply (agrees_one true)|apply (agrees_one false)]|reflexivity]).
#[export] Instance good_lit : good as_lit literal. Proof. val. Qed.
#[export] Instance good_value : good as_value constant. Proof. leaf. Qed.

#[export] Instance good_list A (f : data -> lres A) w : good f w -> good (as_list f) (fun l => Items (map w l)).
Proof.
  intros G d a H. destruct d as [| | | | |l|]; try discriminate H. apply mapM_Ok in H. split.
  - constructor. induction H as [|x y l a Hxy H IH]; constructor; [exact (proj1 (G _ _ Hxy))|exact IH].
  - cbn. apply mapM_Ok. induction H as [|x y l a Hxy H IH]; constructor; [exact (proj2 (G _ _ Hxy))|exact IH].
Qed.
#[export] Instance good_strs : good (as_list as_str) texts. Proof. exact (good_list good_str). Qed.
#[export] Instance good_dict A (f : data -> lres A) w : good f w -> good (as_dict f) (table_of w).
Proof.
  intros G d a H. destruct d as [| | | | | |m]; try discriminate H. apply mapM_Ok in H. split.
  - constructor. induction H as [|x y l a Hxy H IH]; constructor; [|exact IH]. cbn in Hxy. opens Hxy. inv Hxy. cbn. split; [reflexivity|exact (proj1 (G _ _ E))].
  - cbn. apply mapM_Ok. induction H as [|x y l a Hxy H IH]; constructor; [|exact IH]. cbn in Hxy. opens Hxy. inv Hxy. cbn. now rewrite (proj2 (G _ _ E)).
Qed.
Lemma no_null A (f : data -> lres A) w a : good f w -> f DNull = Err LxInvalid -> f (plain (w a)) = Ok a -> plain (w a) <> DNull.
Proof. intros G N H E. rewrite E in H. congruence. Qed.
Class nonnull (A : Type) (f : data -> lres A) : Prop := nonnull_is : f DNull = Err LxInvalid.
#[local] Ltac nn := reflexivity.
#[export] Instance nn_str : nonnull as_str. Proof. nn. Qed.
#[export] Instance nn_bool : nonnull as_bool. Proof. nn. Qed.
#[export] Instance nn_int : nonnull as_int. Proof. nn. Qed.
#[export] Instance nn_float : nonnull as_float. Proof. nn. Qed.
#[export] Instance nn_one l : nonnull (as_one_of l). Proof. nn. Qed.
#[export] Instance nn_dict A (f : data -> lres A) : nonnull (as_dict f). Proof. nn. Qed.
#[export] Instance nn_planner : nonnull load_planner. Proof. nn. Qed.
#[export] Instance nn_sampler : nonnull load_sampler. Proof. nn. Qed.
#[export] Instance good_nullable A (f : data -> lres A) w : good f w -> nonnull f -> good (nullable f) (maybe w).
Proof.
  intros G N d a H. assert (W : forall b, f d = Ok b -> nullable f (plain (w b)) = Ok (Some b)).
  { intros b Hb. apply G in Hb. destruct Hb as [_ Hb]. unfold nullable. rewrite Hb. destruct (plain (w b)); [|reflexivity..]. rewrite N in Hb. discriminate. }
  destruct d; cbn in H; [injection H as <-; split; [apply agrees_leaf|reflexivity]|..]; opens H; injection H as <-; cbn [maybe]; (split; [exact (proj1 (G _ _ E))|now apply W]).
Qed.
#[export] Instance good_one l : good (as_one_of l) text.
Proof.
  intros d a H. unfold as_one_of in H. opens H. destruct (memb x l) eqn:M; [|discriminate]. injection H as <-. destruct d; try discriminate. injection E as <-.
  split; [apply agrees_leaf|]. cbn. now rewrite M.
Qed.

Lemma optional_here A (f : data -> lres A) a0 k x m : optional f a0 ((k, x) :: m) k = f x.
Proof. unfold optional, dget. cbn. destruct (eq_dec k k); congruence. Qed.
Lemma optional_skip A (f : data -> lres A) a0 k k' x m : String.eqb k' k = false -> optional f a0 ((k', x) :: m) k = optional f a0 m k.
Proof. intros H. apply String.eqb_neq in H. unfold optional. cbn. destruct (eq_dec k k'); congruence. Qed.
Lemma field_here A (f : data -> lres A) k x m : field_of f ((k, x) :: m) k = f x.
Proof. unfold field_of, required, lookup. cbn. destruct (eq_dec k k); congruence. Qed.
Lemma field_skip A (f : data -> lres A) k k' x m : String.eqb k' k = false -> field_of f ((k', x) :: m) k = field_of f m k.
Proof. intros H. apply String.eqb_neq in H. unfold field_of, required, lookup. cbn. destruct (eq_dec k k'); congruence. Qed.
Lemma dget_cons_skip (k k' : string) A (x : A) m : String.eqb k' k = false -> dget ((k', x) :: m) k = dget m k.
Proof. intros H. apply String.eqb_neq in H. cbn. destruct (eq_dec k k'); congruence. Qed.
Lemma dget_case (k k' : string) A (x y : A) m : dget ((k', x) :: m) k = Some y -> k = k' /\ y = x \/ dget m k = Some y.
Proof. cbn. destruct (eq_dec k k'); [intros H; left; split; congruence|intros H; right; exact H]. Qed.

Lemma from_optional A (f : data -> lres A) w (G : good f w) a0 m k a : optional f a0 m k = Ok a -> f (plain (w a0)) = Ok a0 ->
  (forall d, dget m k = Some d -> agrees d (w a)) /\ f (plain (w a)) = Ok a.
Proof.
  unfold optional. destruct (dget m k) as [d|]; intros H H0.
  - destruct (G _ _ H). split; [intros ? [= <-]; assumption|assumption].
  - injection H as <-. split; [discriminate|exact H0].
Qed.
Lemma from_field A (f : data -> lres A) w (G : good f w) m k a : field_of f m k = Ok a ->
  (forall d, dget m k = Some d -> agrees d (w a)) /\ f (plain (w a)) = Ok a.
Proof.
  unfold field_of, required, lookup. destruct (dget m k) as [d|]; intros H; [|discriminate].
  destruct (G _ _ H). split; [intros ? [= <-]; assumption|assumption].
Qed.

(** Take apart a loader, use the parts. *)
#[local] Ltac harvest := repeat match goal with
  | E : optional ?f ?a0 ?m ?k = Ok ?a |- _ => apply (@from_optional _ f _ _ a0 m k a) in E; [destruct E as [? E]|reflexivity]
  | E : field_of ?f ?m ?k = Ok ?a |- _ => apply (@from_field _ f _ _ m k a) in E; destruct E as [? E]
  end.
#[local] Ltac pick := let k := fresh "k" in let d := fresh "d" in let x := fresh "x" in let Hd := fresh "Hd" in let Hx := fresh "Hx" in
  apply agrees_options; intros k d x Hd Hx; cbn [app] in Hx;
  repeat (apply dget_case in Hx; destruct Hx as [[-> ->]|Hx]; [match goal with A : forall d, dget _ _ = Some d -> agrees d _ |- _ => exact (A _ Hd) end|]); discriminate Hx.
Lemma only_ok names m : forallb (fun kv : string * data => memb (fst kv) names) m = true -> only names m = Ok tt.
Proof. unfold only. intros ->. reflexivity. Qed.
#[local] Ltac put := cbn [plain] in *; cbn [plain map fst snd as_map bind app tg_all tg_percent tg_amount tg_like tg_in tg_sql cc_col cc_op cc_val x_src x_src_cols x_dst x_dst_cols
    c_constraints c_select c_targets c_ignore c_passthrough c_ignore_fks c_extra_fks c_infer c_include_deps
    ssl_require ssl_cert ssl_key ssl_rootcert ssl_verify dc_dialect dc_host dc_port dc_database dc_username dc_password dc_session_sqls dc_sqlite dc_isolation dc_ssl
    mc_op mc_value mc_apply mc_multiplier mc_extra mc_ignore_tables mc_ignore_pk cp_primary_keys cp_auto_increment cp_start cp_columns
    ss_output ss_filters ss_multiplicity ss_infer ss_compact sub_source sub_planner sub_sampler];
  rewrite ?only_ok by reflexivity; cbn [bind];
  repeat (rewrite ?optional_here, ?field_here, ?optional_skip, ?field_skip by reflexivity;
  match goal with E : ?f ?x = Ok _ |- context [?f ?x] => rewrite E; cbn [bind] end);
  rewrite ?optional_here, ?field_here, ?optional_skip, ?field_skip by reflexivity.
#[local] Ltac record load := let d := fresh "d" in let a := fresh "a" in let H := fresh "H" in
  intros d a H; destruct d as [| | | | | |m]; try discriminate H; unfold load in H; cbn [as_map] in H; opens H.

#[export] Instance good_target : good load_target doc_target.
Proof.
  record load_target. injection E as <-. injection H as <-. harvest. split; [pick|]. unfold load_target, doc_target. put. reflexivity.
Qed.

#[export] Instance good_ignore_fk : good load_ignore_fk doc_ignore_fk.
Proof.
  record load_ignore_fk. injection E as <-. injection H as <-. harvest. split; [pick|]. unfold load_ignore_fk, doc_ignore_fk. put. reflexivity.
Qed.
#[export] Instance good_extra_fk : good load_extra_fk doc_extra_fk.
Proof.
  record load_extra_fk. injection E as <-. destruct (check_columns_match _ _) eqn:C in H; [|discriminate]. injection H as <-. harvest. split; [pick|].
  unfold load_extra_fk, doc_extra_fk. put. rewrite C. reflexivity.
Qed.
#[export] Instance good_op : good as_op doc_op.
Proof.
  intros d a H. unfold as_op in H. opens H. destruct d; try discriminate E. injection E as <-.
  destruct (find _ _) as [op|] eqn:F in H; [|discriminate]. injection H as <-. apply find_some in F. destruct F as [_ F]. apply String.eqb_eq in F. subst s.
  destruct op; (split; [apply agrees_leaf|reflexivity]).
Qed.
#[export] Instance good_lits : good as_lit_or_list (fun v => match v with inl v => literal v | inr l => Items (map literal l) end).
Proof.
  assert (One : forall d a, as_lit d = Ok a -> agrees d (literal a) /\ as_lit_or_list (plain (literal a)) = Ok (inl a)).
  { intros d a H. destruct (good_lit H) as [A W]. split; [exact A|]. unfold as_lit_or_list. destruct a; reflexivity. }
  intros d a H. destruct d as [| | | | |l|]; unfold as_lit_or_list in H; opens H; injection H as <-; try exact (One _ _ E).
  destruct (good_list good_lit (d := DList l) E) as [A W]. split; [exact A|]. unfold as_lit_or_list. cbn [plain]. cbn [plain] in W. rewrite W. reflexivity.
Qed.
#[export] Instance good_constraint : good load_constraint doc_constraint.
Proof.
  record load_constraint. injection E as <-. injection H as <-. harvest. split; [pick|]. unfold load_constraint, doc_constraint. put. reflexivity.
Qed.
#[export] Instance good_infer : good as_infer doc_infer.
Proof.
  intros d a H. unfold as_infer, as_one_of in H. opens H. apply (proj1 (bind_Ok _ _ _)) in E. destruct E as (s & E0 & E). destruct d; try discriminate E0. injection E0 as ->. destruct (memb s _) eqn:M in E; [|discriminate]. injection E as <-.
  apply memb_true in M. destruct M as [<-|[<-|[<-|[]]]]; injection H as <-; (split; [apply agrees_leaf|reflexivity]).
Qed.
#[export] Instance good_planner : good load_planner doc_planner.
Proof.
  record load_planner. injection E as <-. injection H as <-. harvest. split; [pick|]. unfold load_planner, doc_planner. put. reflexivity.
Qed.

#[local] Ltac pair_case H := match type of H with context [match ?x with pair _ _ => _ end] => destruct x as [? ?] end.
#[export] Instance good_client : good load_client doc_client.
Proof.
  record load_client. injection E as <-. injection H as <-. harvest. split; [pick|]. unfold load_client, doc_client. put. reflexivity.
Qed.
#[export] Instance good_server : good load_server doc_server.
Proof.
  record load_server. injection E as <-. injection H as <-.
  assert (V : (forall d, dget m "verify" = Some d -> exists s, x1 = Some s /\ d = DStr s) /\ (forall s, x1 = Some s -> memb s ["none"; "cert"; "identity"] = true)).
  { unfold optional in E1. destruct (dget m "verify") as [d|] eqn:D.
    - opens E1. injection E1 as <-. unfold as_one_of in E. opens E. destruct (memb x1 _) eqn:M in E; [|discriminate]. injection E as ->. destruct d; try discriminate. injection E1 as ->.
      split; [intros ? [= <-]; eauto|intros ? [= <-]; exact M].
    - injection E1 as <-. split; discriminate. }
  clear E1. destruct V as [V1 V2]. harvest. split.
  - apply agrees_options. intros k d y Hd Hy. apply dget_case in Hy. destruct Hy as [[-> ->]|Hy]; [exact (H _ Hd)|].
    destruct x1 as [s|]; [|discriminate Hy]. apply dget_case in Hy. destruct Hy as [[-> ->]|Hy]; [|discriminate Hy]. destruct (V1 _ Hd) as (s' & [= <-] & ->). apply agrees_leaf.
  - unfold load_server, doc_server. destruct x1 as [s|]; cbn [given snd]; put; [|reflexivity]. unfold as_one_of. cbn [text plain as_str bind]. rewrite (V2 _ eq_refl). reflexivity.
Qed.
#[export] Instance good_ssl : good load_ssl doc_ssl.
Proof.
  record load_ssl. injection E as <-. pair_case H. opens H. pair_case H. injection H as <-.
  assert (V : (forall d, dget m "require" = Some d -> exists b, x0 = Some b /\ agrees d (maybe flag b))).
  { intros d D. unfold optional in E0. rewrite D in E0. apply (proj1 (bind_Ok _ _ _)) in E0. destruct E0 as (b & Hb & E0). injection E0 as <-. exists b. split; [reflexivity|].
    exact (proj1 (good_nullable good_bool nn_bool Hb)). }
  clear E0. harvest. split.
  - apply agrees_options. intros k d y Hd Hy. destruct x0 as [b|]; cbn [ssl_require given app] in Hy.
    + apply dget_case in Hy. destruct Hy as [[-> ->]|Hy].
      { destruct (V _ Hd) as (b' & [= <-] & A). exact A. }
      repeat (apply dget_case in Hy; destruct Hy as [[-> ->]|Hy]; [match goal with A : forall d, dget _ _ = Some d -> agrees d _ |- _ => exact (A _ Hd) end|]); discriminate Hy.
    + repeat (apply dget_case in Hy; destruct Hy as [[-> ->]|Hy]; [match goal with A : forall d, dget _ _ = Some d -> agrees d _ |- _ => exact (A _ Hd) end|]); discriminate Hy.
  - unfold load_ssl, doc_ssl. destruct x0 as [[b|]|]; cbn [ssl_require given app]; put; cbn [bind maybe flag plain nullable as_bool]; put; reflexivity.
Qed.

Definition db_names := ["dialect"; "host"; "port"; "database"; "username"; "password"; "session_sqls"; "sqlite_databases"; "isolation_level"; "ssl"; "echo"].
Lemma optional_ext A (f : data -> lres A) a0 m m' k : dget m k = dget m' k -> optional f a0 m k = optional f a0 m' k.
Proof. unfold optional. intros ->. reflexivity. Qed.
Ltac ext_step H := match goal with |- bind (optional ?f ?a ?m ?k) _ = bind (optional ?f ?a ?m' ?k) _ =>
  rewrite (@optional_ext _ f a m m' k) by (apply H; cbn; tauto); destruct (optional f a m' k); cbn [bind]; [|reflexivity] end.
Lemma load_database_ext m m' : (forall k, In k db_names -> dget m k = dget m' k) -> load_database m = load_database m'.
Proof. intros H. unfold load_database. repeat ext_step H. reflexivity. Qed.
Lemma load_database_ok m c : load_database m = Ok c ->
  (forall k d x, dget m k = Some d -> dget (database_options c) k = Some x -> agrees d x) /\
  load_database (map (fun kx => (fst kx, plain (snd kx))) (database_options c)) = Ok c.
Proof.
  intros H. unfold load_database in H. opens H. injection H as <-.
  assert (Q : (forall d, dget m "sqlite_databases" = Some d -> agrees d (table_of text (match x6 with Some l => l | None => [] end))) /\
    nullable (as_dict as_str) (plain (table_of text (match x6 with Some l => l | None => [] end))) = Ok (Some (match x6 with Some l => l | None => [] end))).
  { unfold optional in E6. destruct (dget m "sqlite_databases") as [d|] eqn:D.
    - destruct (good_nullable (f := as_dict as_str) (w := table_of text) (d := d) (a := x6) ltac:(typeclasses eauto) ltac:(typeclasses eauto) E6) as [A W].
      destruct x6 as [l|].
      + split; [intros ? [= <-]; exact A|exact W].
      + split; [|reflexivity]. intros ? [= <-]. inversion A; subst. apply agrees_null.
    - injection E6 as <-. split; [discriminate|reflexivity]. }
  destruct Q as [Q1 Q2]. clear E6. set (sq := match x6 with Some l => l | None => [] end) in *. clearbody sq.
  harvest. split.
  - intros k d y Hd Hx. unfold database_options in Hx. cbn [dc_dialect dc_host dc_port dc_database dc_username dc_password dc_session_sqls dc_sqlite dc_isolation dc_ssl] in Hx.
    repeat (apply dget_case in Hx; destruct Hx as [[-> ->]|Hx]; [match goal with A : forall d, dget _ _ = Some d -> agrees d _ |- _ => exact (A _ Hd) end|]); discriminate Hx.
  - unfold load_database, database_options. put. reflexivity.
Qed.
#[export] Instance good_source : good (fun d => let* m := as_map d in load_database m) (fun c => Options (database_options c)).
Proof.
  intros d a H. destruct d as [| | | | | |m]; try discriminate H. cbn [as_map bind] in H. apply load_database_ok in H. destruct H as [A W]. split; [apply agrees_options; exact A|exact W].
Qed.
#[export] Instance good_remap : good load_remap doc_remap.
Proof. record load_remap. injection E as <-. injection H as <-. harvest. split; [pick|]. unfold load_remap, doc_remap. put. reflexivity. Qed.
#[export] Instance good_strategy : good as_strategy doc_strategy.
Proof.
  intros d a H. unfold as_strategy, as_one_of in H. opens H. apply (proj1 (bind_Ok _ _ _)) in E. destruct E as (s & E0 & E). destruct d; try discriminate E0. injection E0 as ->. destruct (memb s _) eqn:M in E; [|discriminate]. injection E as <-.
  apply memb_true in M. destruct M as [<-|[<-|[<-|[]]]]; injection H as <-; (split; [apply agrees_leaf|reflexivity]).
Qed.
#[export] Instance good_mult : good load_mult doc_mult.
Proof. record load_mult. injection E as <-. injection H as <-. harvest. split; [pick|]. unfold load_mult, doc_mult. put. reflexivity. Qed.
#[export] Instance good_compact : good load_compact doc_compact.
Proof. record load_compact. injection E as <-. injection H as <-. harvest. split; [pick|]. unfold load_compact, doc_compact. put. reflexivity. Qed.
Lemma dget_app_case A (l l' : dict string A) k x : dget (l ++ l') k = Some x -> dget l k = Some x \/ dget l' k = Some x.
Proof. induction l as [|[k' v] l IH]; cbn; [auto|]. destruct (eq_dec k k'); [auto|exact IH]. Qed.
#[export] Instance good_output : good load_output doc_output.
Proof.
  record load_output. injection E as <-. destruct (String.eqb x0 "directory") eqn:M1; [|destruct (String.eqb x0 "database") eqn:M2; [|discriminate H]].
  - apply String.eqb_eq in M1. subst x0. opens H. injection H as <-. harvest. split; [pick|]. unfold load_output, doc_output. put. change (String.eqb "directory" "directory") with true. cbn iota. put. reflexivity.
  - apply String.eqb_eq in M2. subst x0. opens H. injection H as <-. apply load_database_ok in E. destruct E as [A W]. harvest. split.
    + apply agrees_options. intros k d y Hd Hy. apply dget_case in Hy. destruct Hy as [[-> ->]|Hy]; [match goal with A : forall d, dget _ _ = Some d -> agrees d _ |- _ => exact (A _ Hd) end|].
      apply dget_app_case in Hy. destruct Hy as [Hy|Hy]; [exact (A _ _ _ Hd Hy)|].
      repeat (apply dget_case in Hy; destruct Hy as [[-> ->]|Hy]; [match goal with A : forall d, dget _ _ = Some d -> agrees d _ |- _ => exact (A _ Hd) end|]); discriminate Hy.
    + unfold load_output, doc_output. cbn [plain as_map bind].
      erewrite load_database_ext with (m' := map (fun kx => (fst kx, plain (snd kx))) (database_options x)).
      * rewrite W. unfold database_options. put. change (String.eqb "database" "directory") with false. change (String.eqb "database" "database") with true. cbn iota. cbn [bind]. put. reflexivity.
      * intros k Hk. unfold db_names in Hk. cbn [In] in Hk. repeat destruct Hk as [<-|Hk]; [reflexivity..|destruct Hk].
Qed.
#[export] Instance good_simple : good load_simple (fun f => Options (simple_options f)).
Proof.
  record load_simple. injection E as <-.
  repeat match type of H with (if String.eqb ?x ?s then _ else _) = _ =>
    let M := fresh "M" in destruct (String.eqb x s) eqn:M; [apply String.eqb_eq in M; subst x; opens H; injection H as <-; harvest; split; [pick|unfold load_simple, simple_options; put; cbn; put; reflexivity]|] end.
  destruct (memb x0 fake_ops) eqn:Mf; [|discriminate H]. opens H. injection H as <-. harvest. split; [pick|]. unfold load_simple, simple_options. put.
  repeat match goal with M : String.eqb _ _ = false |- _ => rewrite M; clear M end. rewrite Mf. put. reflexivity.
Qed.
#[export] Instance good_mop : good as_mop doc_mop.
Proof.
  intros d a H. unfold as_mop in H. opens H. destruct d; try discriminate E. injection E as <-.
  destruct (find _ _) as [op|] eqn:F in H; [|discriminate]. injection H as <-. apply find_some in F. destruct F as [_ F]. apply String.eqb_eq in F. subst s.
  destruct op; (split; [apply agrees_leaf|reflexivity]).
Qed.
#[export] Instance good_mvalue : good as_mvalue (fun v => match v with MvOne v => constant v | MvList l => Items (map constant l) end).
Proof.
  intros d a H. destruct d as [| | | | |l|]; try discriminate H; cbn in H; [injection H as <-; (split; [apply agrees_leaf|reflexivity])..|].
  opens H. injection H as <-. destruct (good_list good_value (d := DList l) E) as [A W]. split; [exact A|]. unfold as_mvalue. cbn [plain]. cbn [plain] in W. rewrite W. reflexivity.
Qed.
#[export] Instance good_condition : good load_condition doc_condition.
Proof.
  record load_condition. injection E as <-. injection H as <-. harvest. split; [pick|]. unfold load_condition, doc_condition. put. reflexivity.
Qed.
#[export] Instance good_filter : good load_filter doc_filter.
Proof.
  record load_filter. injection E as <-. destruct (String.eqb x0 "multiplex") eqn:M.
  - apply String.eqb_eq in M. subst x0. opens H. injection H as <-. harvest. split; [pick|]. unfold load_filter, doc_filter. put. cbn [text plain as_str bind]. change (String.eqb "multiplex" "multiplex") with true. cbn iota. put. reflexivity.
  - opens H. injection H as <-. destruct (good_simple E) as [A W]. split; [exact A|]. unfold load_filter, doc_filter. cbn [plain as_map bind].
    assert (O : field_of as_str (map (fun kx => (fst kx, plain (snd kx))) (simple_options x)) "op" = Ok x0).
    { unfold load_simple in E. cbn [as_map bind] in E. opens E. assert (x1 = x0) by congruence. subst x1.
      repeat match type of E with (if String.eqb ?x ?s then _ else _) = _ =>
        let M := fresh "M" in destruct (String.eqb x s) eqn:M; [apply String.eqb_eq in M; subst x; opens E; injection E as <-; reflexivity|] end.
      destruct (memb x0 fake_ops); [|discriminate]. opens E. injection E as <-. reflexivity. }
    rewrite O. cbn [bind]. rewrite M. cbn [plain] in W. rewrite W. reflexivity.
Qed.
#[export] Instance good_sampler : good load_sampler doc_sampler.
Proof.
  record load_sampler. injection E as <-. injection H as <-. harvest. split; [pick|]. unfold load_sampler, doc_sampler. put. reflexivity.
Qed.
Lemma good_config : good load_config doc_config.
Proof.
  record load_config. injection E as <-. injection H as <-. harvest. split; [pick|]. unfold load_config, doc_config. put. reflexivity.
Qed.
