(** All ways to write a configuration in full mean the same. *)
From Verif Require Import Model.Base Model.Value Model.PlanModel Model.Metadata Model.Planner Model.Filters Model.Multiply Model.Materialize
  Model.Dest Model.Output Model.Config Model.PlanIO Model.ConfigIO.
From Verif Require Import Spec.ScalarSpec Spec.ConfigDocSpec Spec.ConfigWaysSpec Proofs.BaseFacts Proofs.Scalars Proofs.ConfigFacts Proofs.ConfigLoad Proofs.ConfigDoc.
Set Implicit Arguments.
Unset Strict Implicit.
Open Scope string_scope.
Open Scope list_scope.

(** Every way to write [x] is read as [a]. *)
Definition ways {A} (f : data -> lres A) (x : doc) (a : A) : Prop := forall d, writes d x -> f d = Ok a.
Class fine (A : Type) (f : data -> lres A) (w : A -> doc) : Prop := fine_is : forall d a, f d = Ok a -> ways f (w a) a.

Lemma leaf_ways A (f : data -> lres A) d a : f d = Ok a -> ways f (Leaf d) a.
Proof. intros H d' W. inversion W; subst. exact H. Qed.
Lemma items_inv d l' : writes d (Items l') -> exists l, d = DList l /\ Forall2 writes l l'.
Proof. intros W. inversion W; subst. eauto. Qed.
Lemma table_inv d m' : writes d (Table m') -> exists m, d = DMap m /\ Forall2 (fun a b => fst a = fst b /\ writes (snd a) (snd b)) m m'.
Proof. intros W. inversion W; subst. eauto. Qed.
Lemma options_inv m m' : writes (DMap m) (Options m') -> (forall k, dget m k = None <-> dget m' k = None) /\
  (forall k d x, dget m k = Some d -> dget m' k = Some x -> writes d x).
Proof. intros W. inversion W; subst. split; assumption. Qed.
#[export] Instance fine_str : fine as_str text.
Proof. intros d a _. now apply leaf_ways. Qed.
#[export] Instance fine_bool : fine as_bool flag.
Proof. intros d a _ d' W. inversion W; subst. now apply as_bool_ok. Qed.
#[export] Instance fine_int : fine as_int number.
Proof. intros d a _ d' W. inversion W; subst. now apply as_int_ok. Qed.
#[export] Instance fine_float : fine as_float decimal.
Proof. intros d a _ d' W. inversion W; subst. now apply as_float_ok. Qed.
Lemma value_inv d d' : writes d' (Value d) -> d' = d \/ exists b, d' = DBool b /\ d = DInt (one_or_zero b).
Proof. intros W. inversion W; subst; eauto. Qed.
#[export] Instance fine_lit : fine as_lit literal.
Proof.
  intros d a _ d' W. apply value_inv in W. destruct W as [->|(b & -> & E)]; destruct a; try discriminate E; [reflexivity..|]. injection E as ->. destruct b; reflexivity.
Qed.
#[export] Instance fine_value : fine as_value constant.
Proof. intros d a H. apply leaf_ways. exact (proj2 (good_value H)). Qed.

#[export] Instance fine_list A (f : data -> lres A) w : fine f w -> fine (as_list f) (fun l => Items (map w l)).
Proof.
  intros G d a H d' W. destruct d as [| | | | |l|]; try discriminate H. apply mapM_Ok in H. apply items_inv in W. destruct W as (l0 & -> & W). cbn. apply mapM_Ok. revert l0 W.
  induction H as [|x y l a Hxy H IH]; intros l0 W; inversion W as [|x0 y0 l1 l2 Wx Wl]; subst; constructor; [exact (G _ _ Hxy _ Wx)|now apply IH].
Qed.
#[export] Instance fine_strs : fine (as_list as_str) texts. Proof. exact (fine_list fine_str). Qed.
Lemma dict_ways A (f : data -> lres A) w (a : dict string A) : (forall k b, In (k, b) a -> ways f (w b) b) -> ways (as_dict f) (table_of w a) a.
Proof.
  intros G d W. apply table_inv in W. destruct W as (m & -> & W). cbn. apply mapM_Ok. revert m W.
  induction a as [|[k b] a IH]; intros m W; inversion W as [|x y0 l1 l2 Wx Wl]; subst; constructor.
  - destruct x as [k' x]. destruct Wx as [E Hx]. cbn in *. subst k'. rewrite (G k b (or_introl eq_refl) _ Hx). reflexivity.
  - apply IH; [intros ? ? ?; eapply G; right; eassumption|assumption].
Qed.
#[export] Instance fine_dict A (f : data -> lres A) w : fine f w -> fine (as_dict f) (table_of w).
Proof.
  intros G d a H. apply dict_ways. intros k b Hb. destruct d as [| | | | | |m]; try discriminate H. apply mapM_Ok in H.
  induction H as [|x y l a Hxy H IH]; [destruct Hb|]. destruct Hb as [->|Hb]; [|exact (IH Hb)]. cbn in Hxy. opens Hxy. inv Hxy. exact (G _ _ E).
Qed.
#[export] Instance fine_nullable A (f : data -> lres A) w : fine f w -> nonnull f -> fine (nullable f) (maybe w).
Proof.
  intros G N d a H. assert (W : forall b, ways f (w b) b -> ways (nullable f) (w b) (Some b)).
  { intros b Hb d' W. apply Hb in W. unfold nullable. destruct d'; [rewrite N in W; discriminate|rewrite W; reflexivity..]. }
  destruct d; cbn in H; [injection H as <-; now apply leaf_ways|..]; opens H; injection H as <-; exact (W _ (G _ _ E)).
Qed.
#[export] Instance fine_one l : fine (as_one_of l) text.
Proof. intros d a H. apply leaf_ways. exact (proj2 (good_one H)). Qed.

(** ** Options *)
Definition has (m : dict string data) (k : string) (x : doc) : Prop := exists d, dget m k = Some d /\ writes d x.
Lemma options_has m o k x : writes (DMap m) (Options o) -> dget o k = Some x -> has m k x.
Proof.
  intros W H. apply options_inv in W. destruct W as [W1 W2]. destruct (dget m k) as [d|] eqn:D; [exists d; split; [exact D|eauto]|]. apply W1 in D. congruence.
Qed.
Lemma options_none m o k : writes (DMap m) (Options o) -> dget o k = None -> dget m k = None.
Proof. intros W H. apply options_inv in W. now apply W. Qed.
Lemma optional_has A (f : data -> lres A) a0 m k x a : has m k x -> ways f x a -> optional f a0 m k = Ok a.
Proof. intros (d & D & W) H. unfold optional. rewrite D. exact (H _ W). Qed.
Lemma optional_none A (f : data -> lres A) a0 m k : dget m k = None -> optional f a0 m k = Ok a0.
Proof. unfold optional. intros ->. reflexivity. Qed.
Lemma field_has A (f : data -> lres A) m k x a : has m k x -> ways f x a -> field_of f m k = Ok a.
Proof. intros (d & D & W) H. unfold field_of, required, lookup. rewrite D. exact (H _ W). Qed.
Lemma only_options names m o : writes (DMap m) (Options o) -> forallb (fun kx => memb (fst kx) names) o = true -> only names m = Ok tt.
Proof.
  intros W H. unfold only. replace (forallb _ m) with true; [reflexivity|]. symmetry. apply forallb_forall. intros [k d] Hk. cbn.
  apply options_inv in W. destruct W as [W1 _]. destruct (dget o k) as [x|] eqn:O.
  - apply dget_In in O. rewrite forallb_forall in H. exact (H _ O).
  - apply W1 in O. exfalso. revert O Hk. clear. induction m as [|[k' d'] m IH]; [intros _ []|]. cbn. destruct (eq_dec k k'); [discriminate|]. intros O [[= -> _]|Hk]; [congruence|exact (IH O Hk)].
Qed.
Lemma from_optional_ways A (f : data -> lres A) w (G : fine f w) a0 m k a : optional f a0 m k = Ok a -> f (plain (w a0)) = Ok a0 -> ways f (w a) a.
Proof. unfold optional. destruct (dget m k) as [d|]; intros H H0; [exact (G _ _ H)|]. injection H as <-. exact (G _ _ H0). Qed.
Lemma from_field_ways A (f : data -> lres A) w (G : fine f w) m k a : field_of f m k = Ok a -> ways f (w a) a.
Proof. unfold field_of, required, lookup. destruct (dget m k) as [d|]; intros H; [exact (G _ _ H)|discriminate]. Qed.

#[local] Ltac harvest := repeat match goal with
  | E : optional ?f ?a0 ?m ?k = Ok ?a |- _ => apply (@from_optional_ways _ f _ _ a0 m k a) in E; [|reflexivity]
  | E : field_of ?f ?m ?k = Ok ?a |- _ => apply (@from_field_ways _ f _ _ m k a) in E
  end.
#[local] Ltac record load := let d := fresh "d" in let a := fresh "a" in let H := fresh "H" in
  intros d a H; destruct d as [| | | | | |m]; try discriminate H; unfold load in H; cbn [as_map] in H; opens H.
#[local] Ltac given W := let d := fresh "d" in let m := fresh "m'" in intros d W; assert (exists m, d = DMap m) as [m ->] by (inversion W; eauto); cbn [as_map bind].
#[local] Ltac put W := rewrite ?(fun names => @only_options names _ _ W) by reflexivity; cbn [bind];
  repeat (match goal with
    | |- context [optional ?f ?a0 ?m ?k] => first [erewrite (@optional_has _ f a0 m k) by first [eapply (options_has W); reflexivity|eassumption]|rewrite (@optional_none _ f a0 m k) by (apply (options_none W); reflexivity)]
    | |- context [field_of ?f ?m ?k] => erewrite (@field_has _ f m k) by first [eapply (options_has W); reflexivity|eassumption]
    end; cbn [bind]).

#[export] Instance fine_target : fine load_target doc_target.
Proof. record load_target. injection E as <-. injection H as <-. harvest. given W. unfold load_target. cbn [as_map bind]. put W. reflexivity. Qed.
#[export] Instance fine_ignore_fk : fine load_ignore_fk doc_ignore_fk.
Proof. record load_ignore_fk. injection E as <-. injection H as <-. harvest. given W. unfold load_ignore_fk. cbn [as_map bind]. put W. reflexivity. Qed.
#[export] Instance fine_extra_fk : fine load_extra_fk doc_extra_fk.
Proof.
  record load_extra_fk. injection E as <-. destruct (check_columns_match _ _) eqn:C in H; [|discriminate]. injection H as <-. harvest. given W.
  unfold load_extra_fk. cbn [as_map bind]. put W. rewrite C. reflexivity.
Qed.
#[export] Instance fine_op : fine as_op doc_op.
Proof. intros d a H. apply leaf_ways. exact (proj2 (good_op H)). Qed.
#[export] Instance fine_lits : fine as_lit_or_list (fun v => match v with inl v => literal v | inr l => Items (map literal l) end).
Proof.
  assert (One : forall d a, as_lit d = Ok a -> ways as_lit_or_list (literal a) (inl a)).
  { intros d a H d' W. pose proof (fine_lit H W) as R. unfold as_lit_or_list. destruct d'; try discriminate R; rewrite R; reflexivity. }
  intros d a H. destruct d as [| | | | |l|]; unfold as_lit_or_list in H; opens H; injection H as <-; try exact (One _ _ E).
  intros d' W. pose proof (fine_list fine_lit (d := DList l) E W) as R. apply items_inv in W. destruct W as (l' & -> & _). unfold as_lit_or_list. rewrite R. reflexivity.
Qed.
#[export] Instance fine_constraint : fine load_constraint doc_constraint.
Proof. record load_constraint. injection E as <-. injection H as <-. harvest. given W. unfold load_constraint. cbn [as_map bind]. put W. reflexivity. Qed.
#[export] Instance fine_infer : fine as_infer doc_infer.
Proof. intros d a H. apply leaf_ways. exact (proj2 (good_infer H)). Qed.
#[export] Instance fine_planner : fine load_planner doc_planner.
Proof. record load_planner. injection E as <-. injection H as <-. harvest. given W. unfold load_planner. cbn [as_map bind]. put W. reflexivity. Qed.

#[local] Ltac pair_case H := match type of H with context [match ?x with pair _ _ => _ end] => destruct x as [? ?] end.
#[export] Instance fine_client : fine load_client doc_client.
Proof. record load_client. injection E as <-. injection H as <-. harvest. given W. unfold load_client. cbn [as_map bind]. put W. reflexivity. Qed.
Lemma verify_ways s : memb s ["none"; "cert"; "identity"] = true ->
  ways (fun d => let* s := as_one_of ["none"; "cert"; "identity"] d in Ok (Some s)) (text s) (Some s).
Proof. intros M. apply leaf_ways. unfold as_one_of. cbn [as_str bind]. rewrite M. reflexivity. Qed.
#[export] Instance fine_server : fine load_server doc_server.
Proof.
  record load_server. injection E as <-. injection H as <-.
  assert (V : forall s, x1 = Some s -> memb s ["none"; "cert"; "identity"] = true).
  { unfold optional in E1. destruct (dget m "verify") as [d|] eqn:D; [|injection E1 as <-; discriminate].
    opens E1. injection E1 as <-. unfold as_one_of in E. opens E. destruct (memb x1 _) eqn:M in E; [|discriminate]. injection E as ->. intros ? [= <-]. exact M. }
  clear E1. harvest. given W. unfold load_server. cbn [as_map bind]. destruct x1 as [s|].
  - pose proof (verify_ways (V s eq_refl)) as Vs. unfold doc_server, given in W. cbn [fst snd] in W. put W. reflexivity.
  - unfold doc_server, given in W. cbn [fst snd] in W. put W. reflexivity.
Qed.
Lemma require_ways b : ways (fun d => let* b := nullable as_bool d in Ok (Some b)) (maybe flag b) (Some b).
Proof.
  intros d W. assert (R : nullable as_bool d = Ok b).
  { destruct b as [b|]; [|inversion W; subst; reflexivity]. exact (@fine_nullable _ as_bool flag fine_bool nn_bool (DBool b) (Some b) eq_refl d W). }
  rewrite R. reflexivity.
Qed.
#[export] Instance fine_ssl : fine load_ssl doc_ssl.
Proof.
  record load_ssl. injection E as <-. pair_case H. opens H. pair_case H. injection H as <-. clear E0. harvest. given W. unfold load_ssl. cbn [as_map bind].
  destruct x0 as [b|]; unfold doc_ssl, given in W; cbn [ssl_require ssl_cert ssl_key ssl_rootcert ssl_verify app] in W.
  - pose proof (@require_ways b) as R. put W. reflexivity.
  - put W. reflexivity.
Qed.

Lemma load_database_ways m c : load_database m = Ok c -> forall m', (forall k x, dget (database_options c) k = Some x -> has m' k x) -> dget m' "echo" = None ->
  load_database m' = Ok c.
Proof.
  intros H m' B N. unfold load_database in H. opens H. injection H as <-. clear E9. clear E6.
  assert (Q : ways (nullable (as_dict as_str)) (table_of text (match x6 with Some l => l | None => [] end)) (Some (match x6 with Some l => l | None => [] end))).
  { intros d W. assert (R := dict_ways (f := as_str) (w := text) (a := match x6 with Some l => l | None => [] end) (fun k b _ => leaf_ways (f := as_str) (d := DStr b) eq_refl) W).
    apply table_inv in W. destruct W as (l & -> & _). unfold nullable. rewrite R. reflexivity. }
  set (sq := match x6 with Some l => l | None => [] end) in *. clearbody sq.
  harvest. unfold load_database.
  repeat (match goal with
    | |- context [optional ?f ?a0 ?m ?k] => first [erewrite (@optional_has _ f a0 m k) by first [eapply B; reflexivity|eassumption]|rewrite (@optional_none _ f a0 m k) by exact N]
    end; cbn [bind]).
  reflexivity.
Qed.
#[export] Instance fine_source : fine (fun d => let* m := as_map d in load_database m) (fun c => Options (database_options c)).
Proof.
  intros d a H. destruct d as [| | | | | |m]; try discriminate H. cbn [as_map bind] in H. given W.
  apply (load_database_ways H); [intros k x; exact (options_has W)|apply (options_none W); reflexivity].
Qed.
#[export] Instance fine_remap : fine load_remap doc_remap.
Proof. record load_remap. injection E as <-. injection H as <-. harvest. given W. unfold load_remap. cbn [as_map bind]. put W. reflexivity. Qed.
#[export] Instance fine_strategy : fine as_strategy doc_strategy.
Proof. intros d a H. apply leaf_ways. exact (proj2 (good_strategy H)). Qed.
#[export] Instance fine_mult : fine load_mult doc_mult.
Proof. record load_mult. injection E as <-. injection H as <-. harvest. given W. unfold load_mult. cbn [as_map bind]. put W. reflexivity. Qed.
#[export] Instance fine_compact : fine load_compact doc_compact.
Proof. record load_compact. injection E as <-. injection H as <-. harvest. given W. unfold load_compact. cbn [as_map bind]. put W. reflexivity. Qed.
Lemma dget_app_left A (l l' : dict string A) k x : dget l k = Some x -> dget (l ++ l') k = Some x.
Proof. induction l as [|[k' v] l IH]; cbn; [discriminate|]. destruct (eq_dec k k'); [auto|exact IH]. Qed.
#[export] Instance fine_output : fine load_output doc_output.
Proof.
  record load_output. injection E as <-. destruct (String.eqb x0 "directory") eqn:M1; [|destruct (String.eqb x0 "database") eqn:M2; [|discriminate H]].
  - apply String.eqb_eq in M1. subst x0. opens H. injection H as <-. harvest. given W. unfold load_output, doc_output in *. cbn [as_map bind]. put W.
    change (String.eqb "directory" "directory") with true. cbn iota. put W. reflexivity.
  - apply String.eqb_eq in M2. subst x0. opens H. injection H as <-. harvest. given W. unfold load_output, doc_output in *. cbn [as_map bind]. put W.
    change (String.eqb "database" "directory") with false. change (String.eqb "database" "database") with true. cbn iota.
    rewrite (load_database_ways E (m' := m')).
    + cbn [bind]. put W. reflexivity.
    + intros k y Hy. apply (options_has W). rewrite dget_cons_skip; [exact (dget_app_left _ Hy)|].
      apply String.eqb_neq. intros <-. discriminate Hy.
    + apply (options_none W). reflexivity.
Qed.
#[export] Instance fine_simple : fine load_simple (fun f => Options (simple_options f)).
Proof.
  record load_simple. injection E as <-.
  repeat match type of H with (if String.eqb ?x ?s then _ else _) = _ =>
    let M := fresh "M" in destruct (String.eqb x s) eqn:M; [apply String.eqb_eq in M; subst x; opens H; injection H as <-; harvest; given W; unfold load_simple, simple_options in *; cbn [as_map bind]; put W; cbn; put W; reflexivity|] end.
  destruct (memb x0 fake_ops) eqn:Mf; [|discriminate H]. opens H. injection H as <-. harvest. given W. unfold load_simple, simple_options in *. cbn [as_map bind]. put W.
  repeat match goal with M : String.eqb _ _ = false |- _ => rewrite M; clear M end. rewrite Mf. put W. reflexivity.
Qed.
#[export] Instance fine_mop : fine as_mop doc_mop.
Proof. intros d a H. apply leaf_ways. exact (proj2 (good_mop H)). Qed.
#[export] Instance fine_mvalue : fine as_mvalue (fun v => match v with MvOne v => constant v | MvList l => Items (map constant l) end).
Proof.
  intros d a H. destruct d as [| | | | |l|]; try discriminate H; cbn in H; [injection H as <-; now apply leaf_ways..|].
  opens H. injection H as <-. intros d' W. pose proof (fine_list fine_value (d := DList l) E W) as R. apply items_inv in W. destruct W as (l' & -> & _). unfold as_mvalue. rewrite R. reflexivity.
Qed.
#[export] Instance fine_condition : fine load_condition doc_condition.
Proof. record load_condition. injection E as <-. injection H as <-. harvest. given W. unfold load_condition. cbn [as_map bind]. put W. reflexivity. Qed.
#[export] Instance fine_filter : fine load_filter doc_filter.
Proof.
  record load_filter. injection E as <-. destruct (String.eqb x0 "multiplex") eqn:M.
  - apply String.eqb_eq in M. subst x0. opens H. injection H as <-. harvest. given W. unfold load_filter, doc_filter in *. cbn [as_map bind]. put W.
    change (String.eqb "multiplex" "multiplex") with true. cbn iota. put W. reflexivity.
  - opens H. injection H as <-. pose proof (fine_simple E) as F. given W. pose proof (F _ W) as R. unfold load_filter, doc_filter in *. cbn [as_map bind].
    assert (O : dget (simple_options x) "op" = Some (text x0)).
    { unfold load_simple in E. cbn [as_map bind] in E. opens E. assert (x1 = x0) by congruence. subst x1.
      repeat match type of E with (if String.eqb ?x ?s then _ else _) = _ =>
        let M := fresh "M" in destruct (String.eqb x s) eqn:M; [apply String.eqb_eq in M; subst x; opens E; injection E as <-; reflexivity|] end.
      destruct (memb x0 fake_ops); [|discriminate]. opens E. injection E as <-. reflexivity. }
    rewrite (field_has (f := as_str) (options_has W O) (leaf_ways (d := DStr x0) eq_refl)). cbn [bind]. rewrite M, R. reflexivity.
Qed.
#[export] Instance fine_sampler : fine load_sampler doc_sampler.
Proof. record load_sampler. injection E as <-. injection H as <-. harvest. given W. unfold load_sampler. cbn [as_map bind]. put W. reflexivity. Qed.
Lemma fine_config : fine load_config doc_config.
Proof. record load_config. injection E as <-. injection H as <-. harvest. given W. unfold load_config. cbn [as_map bind]. put W. reflexivity. Qed.

Lemma plain_writes : forall x, writes (plain x) x.
Proof.
  fix IH 1. intros [d|b|z|q|d|l|m|m]; cbn [plain].
  - constructor.
  - constructor. left. reflexivity.
  - constructor. left. reflexivity.
  - constructor. left. reflexivity.
  - constructor.
  - constructor. induction l as [|x l IHl]; constructor; [apply IH|exact IHl].
  - constructor. induction m as [|[k x] m IHm]; constructor; [split; [reflexivity|apply IH]|exact IHm].
  - constructor.
    + intros k. induction m as [|[k' x] m IHm]; cbn; [tauto|]. destruct (eq_dec k k'); [split; discriminate|exact IHm].
    + intros k d y. induction m as [|[k' x] m IHm]; cbn; [discriminate|]. destruct (eq_dec k k'); [|exact IHm]. intros [= <-] [= <-]. apply IH.
Qed.
(** Two ways to write the same configuration. *)
Lemma config_ways d c : load_config d = Ok c -> forall d', writes d' (doc_config c) -> load_config d' = Ok c.
Proof. intros H d' W. exact (fine_config H W). Qed.
