(** The operators of multiplex conditions decide what the conditions say. *)
From Coq Require Import Lia String Ascii List NArith ZArith QArith Bool.
From Verif Require Import Model.Base Model.Value Model.Filters Model.Fnmatch Model.Output Model.PyCompare Spec.PatternSpec Spec.FilterSpec Spec.ConditionSpec.
From Verif Require Import Proofs.BaseFacts Proofs.FilterMain Proofs.PatternFacts.
Set Implicit Arguments. Unset Strict Implicit.
Open Scope list_scope.

Lemma num_spec x a : as_number x = Some a <-> number x a.
Proof.
  split.
  - destruct x as [|[|]| | | | |]; cbn; intros E; try discriminate; injection E as <-; constructor.
  - intros [z| | |q]; reflexivity.
Qed.
Lemma num_none x : as_number x = None <-> forall a, ~ number x a.
Proof.
  split.
  - intros E a H. apply num_spec in H. congruence.
  - intros H. destruct (as_number x) as [a|] eqn:E; [|reflexivity]. apply num_spec in E. destruct (H _ E).
Qed.
Lemma number_one x a b : number x a -> number x b -> a = b.
Proof. intros H1 H2. apply num_spec in H1, H2. congruence. Qed.
Lemma ordinary_is x : ordinary x -> is_other x = false.
Proof. intros H. destruct x; try reflexivity. destruct (H k eq_refl). Qed.

(** Text *)
Lemma compare_less s : forall t, String.compare s t = Lt <-> text_less s t.
Proof.
  induction s as [|c s IH]; intros [|d t].
  - cbn. split; [discriminate|]. intros [(c & r & E)|(u & c & d & r & r' & E & _)]; destruct u + idtac; discriminate.
  - cbn. split; [|reflexivity]. intros _. left. exists d, t. reflexivity.
  - cbn. split; [discriminate|]. intros [(c' & r & E)|(u & c' & d & r & r' & _ & E & _)]; [|destruct u]; discriminate.
  - cbn. destruct (Ascii.compare c d) eqn:E.
    + apply Ascii.compare_eq_iff in E. subst d. rewrite IH. split.
      * intros [(c' & r & ->)|(u & c' & d & r & r' & -> & -> & H)]; [left; exists c', r; reflexivity|].
        right. exists (String c u), c', d, r, r'. split; [reflexivity|]. split; [reflexivity|exact H].
      * intros [(c' & r & E)|([|c0 u] & c' & d & r & r' & E1 & E2 & H)].
        -- injection E as ->. left. exists c', r. reflexivity.
        -- cbn in E1, E2. injection E1 as -> ->. injection E2 as -> ->. lia.
        -- cbn in E1, E2. injection E1 as -> ->. injection E2 as ->. right. exists u, c', d, r, r'. repeat (split; try reflexivity). exact H.
    + split; [|reflexivity]. intros _. right. exists EmptyString, c, d, s, t. split; [reflexivity|]. split; [reflexivity|].
      unfold Ascii.compare in E. apply N.compare_lt_iff in E. exact E.
    + split; [discriminate|]. intros [(c' & r & E1)|([|c0 u] & c' & d' & r & r' & E1 & E2 & H)].
      * injection E1 as -> ->. unfold Ascii.compare in E. rewrite N.compare_refl in E. discriminate.
      * cbn in E1, E2. injection E1 as -> ->. injection E2 as -> ->. unfold Ascii.compare in E. apply N.compare_gt_iff in E. lia.
      * cbn in E1, E2. injection E1 as -> ->. injection E2 as ->. unfold Ascii.compare in E. rewrite N.compare_refl in E. discriminate.
Qed.
Lemma compare_more s t : String.compare s t = Gt <-> text_less t s.
Proof.
  rewrite <- compare_less. rewrite (String.compare_antisym t s). destruct (String.compare s t); cbn; split; intros H; try discriminate; reflexivity.
Qed.
Lemma prefix_spec a : forall b, prefix a b = true <-> exists r, b = (a ++ r)%string.
Proof.
  induction a as [|c a IH]; intros b.
  - split; [intros _; exists b; reflexivity|]. intros _. destruct b; reflexivity.
  - destruct b as [|d b]; cbn; [split; [discriminate|intros (r & E); discriminate]|]. destruct (ascii_dec c d) as [<-|Hn].
    + rewrite IH. split; intros (r & E); exists r; [rewrite E; reflexivity|injection E as E; exact E].
    + split; [discriminate|]. intros (r & E). injection E as E _. congruence.
Qed.
Lemma contains_spec a b : contains a b = true <-> part_of a b.
Proof.
  induction b as [|d b IH]; cbn [contains]; rewrite orb_true_iff, prefix_spec.
  - split.
    + intros [(r & E)|E]; [|discriminate]. exists EmptyString, r. exact E.
    + intros (u & v & E). left. destruct u; [|discriminate]. exists v. exact E.
  - rewrite IH. split.
    + intros [(r & E)|(u & v & ->)]; [exists EmptyString, r; exact E|exists (String d u), v; reflexivity].
    + intros ([|c u] & v & E); [left; exists v; exact E|]. injection E as -> ->. right. exists u, v. reflexivity.
Qed.

Section Facts.
Variable same_object : value -> value -> bool.
Variable other_eq : value -> value -> bool.
Variable other_cmp : value -> value -> res filter_exn comparison.
Notation eq1 := (eq1 other_eq).
Notation cmp1 := (cmp1 other_cmp).

Lemma eq1_spec x y : ordinary x -> ordinary y -> eq1 x y = true <-> equal x y.
Proof.
  intros Hx Hy. unfold PyCompare.eq1. rewrite (ordinary_is Hx), (ordinary_is Hy). cbn [orb].
  destruct (as_number x) as [a|] eqn:Ex, (as_number y) as [b|] eqn:Ey.
  - apply num_spec in Ex, Ey. rewrite Qeq_bool_iff. split.
    + intros H. left. exists a, b. repeat (split; try assumption).
    + intros [(a' & b' & H1 & H2 & H)|E].
      * rewrite (number_one Ex H1), (number_one Ey H2). exact H.
      * subst y. rewrite (number_one Ex Ey). reflexivity.
  - rewrite num_none in Ey. apply num_spec in Ex. split; [discriminate|]. intros [(a' & b' & _ & H & _)|E]; [destruct (Ey _ H)|subst; destruct (Ey _ Ex)].
  - rewrite num_none in Ex. apply num_spec in Ey. split; [discriminate|]. intros [(a' & b' & H & _)|E]; [destruct (Ex _ H)|subst; destruct (Ex _ Ey)].
  - rewrite num_none in Ex. split.
    + intros E. right. exact (proj1 (eqb_true _ _) E).
    + intros [(a' & b' & H & _)|E]; [destruct (Ex _ H)|apply eqb_true; exact E].
Qed.

(** Comparing *)
Lemma cmp1_spec x y : ordinary x -> ordinary y -> comparable x y ->
  exists c, cmp1 x y = Ok c /\ (c = Lt <-> less x y) /\ (c = Gt <-> less y x).
Proof.
  intros Hx Hy Hc. unfold PyCompare.cmp1. rewrite (ordinary_is Hx), (ordinary_is Hy). cbn [orb].
  destruct Hc as [[(a & Ha) (b & Hb)]|[(s & ->) (t & ->)]].
  - rewrite (proj2 (num_spec _ _) Ha), (proj2 (num_spec _ _) Hb). eexists. split; [reflexivity|].
    assert (forall x s, number x s -> forall t, x <> VStr t) as Nt by (intros ? ? [] ?; discriminate).
    split.
    + rewrite <- Qlt_alt. split.
      * intros H. left. exists a, b. repeat (split; try assumption).
      * intros [(a' & b' & H1 & H2 & H)|(s & t & E & _)]; [rewrite (number_one Ha H1), (number_one Hb H2); exact H|destruct (Nt _ _ Ha _ E)].
    + rewrite <- Qgt_alt. split.
      * intros H. left. exists b, a. repeat (split; try assumption).
      * intros [(b' & a' & H1 & H2 & H)|(s & t & E & _)]; [rewrite (number_one Ha H2), (number_one Hb H1); exact H|destruct (Nt _ _ Hb _ E)].
  - cbn [as_number]. eexists. split; [reflexivity|].
    assert (forall s q, ~ number (VStr s) q) as Ns by (intros s0 q H; inversion H).
    split; [rewrite compare_less|rewrite compare_more]; (split; [intros H; right; eexists; eexists; repeat (split; try reflexivity); exact H|]).
    + intros [(a & b & H & _)|(s' & t' & E1 & E2 & H)]; [destruct (Ns _ _ H)|]. congruence.
    + intros [(a & b & H & _)|(s' & t' & E1 & E2 & H)]; [destruct (Ns _ _ H)|]. congruence.
Qed.
Lemma cmp1_fails x y : ordinary x -> ordinary y -> ~ comparable x y -> cmp1 x y = Err FxTypeError.
Proof.
  intros Hx Hy Hc. unfold PyCompare.cmp1. rewrite (ordinary_is Hx), (ordinary_is Hy). cbn [orb].
  destruct (as_number x) as [a|] eqn:Ex.
  - destruct (as_number y) as [b|] eqn:Ey.
    + destruct Hc. left. split; [exists a|exists b]; apply num_spec; assumption.
    + destruct x; cbn in Ex; try discriminate; reflexivity.
  - destruct x; cbn in Ex; try discriminate; try reflexivity. destruct y; try reflexivity. destruct Hc. right. split; eexists; reflexivity.
Qed.
Lemma less_comparable x y : less x y -> comparable x y.
Proof. intros [(a & b & H1 & H2 & _)|(s & t & -> & -> & _)]; [left|right]; split; eexists; eassumption || reflexivity. Qed.
Lemma comparable_dec x y : {comparable x y} + {~ comparable x y}.
Proof.
  destruct (as_number x) as [a|] eqn:Ex, (as_number y) as [b|] eqn:Ey.
  - left. left. split; [exists a|exists b]; apply num_spec; assumption.
  - right. rewrite num_none in Ey. apply num_spec in Ex. intros [[_ (b & Hb)]|[(s & ->) _]]; [destruct (Ey _ Hb)|inversion Ex].
  - right. rewrite num_none in Ex. apply num_spec in Ey. intros [[(d & Hb) _]|[_ (s & ->)]]; [destruct (Ex _ Hb)|inversion Ey].
  - rewrite num_none in Ex, Ey. destruct x; try (right; intros [[(qq & Hq) _]|[(s' & E) _]]; [destruct (Ex _ Hq)|discriminate]).
    destruct y; try (right; intros [[_ (qq & Hq)]|[_ (s' & E)]]; [destruct (Ey _ Hq)|discriminate]).
    left. right. split; eexists; reflexivity.
Qed.

Notation decides := (match_condition same_object other_eq other_cmp).
(** A condition that makes sense is decided, and any other raises. *)
Definition decided (r : res filter_exn bool) (s p : Prop) : Prop := (s /\ exists b, r = Ok b /\ (b = true <-> p)) \/ (~ s /\ r = Err FxTypeError).
Lemma not_true b p : (b = true <-> p) -> (negb b = true <-> ~ p).
Proof. intros [H1 H2]. destruct b; cbn; split; intros H; try discriminate; [destruct (H (H1 eq_refl))|intros Hp; discriminate (H2 Hp)|reflexivity]. Qed.

Lemma list_in x l : ordinary x -> (forall y, In y l -> ordinary y) -> existsb (eq1 x) l = true <-> exists y, In y l /\ equal x y.
Proof.
  intros Hx Hl. rewrite existsb_exists. split; intros (y & Hi & H); exists y; (split; [exact Hi|]); apply (eq1_spec Hx (Hl y Hi)); exact H.
Qed.
Lemma in_decided x w : ordinary x -> ordinary_values w ->
  decided (c_in other_eq x w) ((exists l, w = MvList l) \/ (exists s t, x = VStr s /\ w = MvOne (VStr t))) (among x w).
Proof.
  intros Hx Hw. destruct w as [y|l].
  - destruct y; try (right; split; [intros [(l & E)|(s' & t' & _ & E)]; discriminate|reflexivity]).
    destruct x; try (right; split; [intros [(l & E)|(s' & t' & E & _)]; discriminate|reflexivity]).
    left. split; [right; eexists; eexists; split; reflexivity|]. eexists. split; [reflexivity|]. rewrite contains_spec. split.
    + intros H. right. eexists. eexists. split; [reflexivity|]. split; [reflexivity|exact H].
    + intros [(l & y & E & _)|(s' & t' & E1 & E2 & H)]; [discriminate|]. congruence.
  - left. split; [left; exists l; reflexivity|]. eexists. split; [reflexivity|]. rewrite (list_in Hx Hw). split.
    + intros (y & Hi & H). left. exists l, y. split; [reflexivity|]. split; assumption.
    + intros [(l' & y & E & Hi & H)|(s' & t' & _ & E & _)]; [|discriminate]. injection E as <-. exists y. split; assumption.
Qed.
Lemma cmp_decided test (P : value -> Prop) x w : ordinary x -> ordinary_values w ->
  (forall y c, w = MvOne y -> comparable x y -> (c = Lt <-> less x y) -> (c = Gt <-> less y x) -> (test c = true <-> P y)) ->
  decided (c_cmp other_cmp test x w) (exists y, w = MvOne y /\ comparable x y) (exists y, w = MvOne y /\ P y).
Proof.
  intros Hx Hw HP. destruct w as [y|l].
  - cbn in Hw. cbn [c_cmp]. destruct (comparable_dec x y) as [Hc|Hc].
    + left. split; [exists y; split; [reflexivity|exact Hc]|]. destruct (cmp1_spec Hx Hw Hc) as (c & -> & H1 & H2). eexists. split; [reflexivity|].
      rewrite (HP y c eq_refl Hc H1 H2). split; [intros H; exists y; split; [reflexivity|exact H]|intros (y' & E & H); congruence].
    + right. split; [intros (y' & E & H); congruence|]. rewrite (cmp1_fails Hx Hw Hc). reflexivity.
  - right. split; [intros (y & E & _); discriminate|reflexivity].
Qed.

Theorem condition_decided k x : plain_condition (mc_op k) (mc_value k) -> ordinary x -> ordinary_values (mc_value k) ->
  decided (decides k x) (sensible (mc_op k) x (mc_value k)) (said (mc_op k) x (mc_value k)).
Proof.
  destruct k as [op w ap]. cbn [mc_op mc_value]. intros Hp Hx Hw.
  assert (Heq : c_eq other_eq x w = true <-> exists y, w = MvOne y /\ equal x y).
  { destruct w as [y|l]; cbn [c_eq]; [rewrite (eq1_spec Hx Hw)|].
    - split; [intros H; exists y; split; [reflexivity|exact H]|intros (y' & E & H); congruence].
    - split; [discriminate|intros (y & E & _); discriminate]. }
  assert (His : w = MvOne VNull -> c_is same_object x w = true <-> exists y, w = MvOne y /\ equal x y).
  { intros ->. split.
    - intros H. exists VNull. split; [reflexivity|]. right. destruct x; cbn in H; try discriminate. reflexivity.
    - intros (y & E & [(a & b & _ & H & _)|H]); injection E as <-; [inversion H|]. subst x. reflexivity. }
  unfold match_condition, cond_match. cbn [mc_op mc_value]. destruct op; cbn [sensible said plain_condition] in *.
  - left. split; [exact I|]. eexists. split; [reflexivity|]. apply His, Hp.
  - left. split; [exact I|]. eexists. split; [reflexivity|]. apply not_true, His, Hp.
  - apply in_decided; assumption.
  - destruct (in_decided Hx Hw) as [(Hs & b & -> & Hb)|(Hs & ->)]; [left|right; split; [exact Hs|reflexivity]].
    split; [exact Hs|]. eexists. split; [reflexivity|]. apply not_true, Hb.
  - left. split; [exact I|]. eexists. split; [reflexivity|]. exact Heq.
  - left. split; [exact I|]. eexists. split; [reflexivity|]. apply not_true, Heq.
  - apply (cmp_decided (P := fun y => less x y) Hx Hw). intros y c _ _ H1 H2. rewrite <- H1. destruct c; split; intros H; try discriminate; reflexivity.
  - apply (cmp_decided (P := fun y => less y x) Hx Hw). intros y c _ _ H1 H2. rewrite <- H2. destruct c; split; intros H; try discriminate; reflexivity.
  - apply (cmp_decided (P := fun y => ~ less y x) Hx Hw). intros y c _ _ H1 H2. rewrite <- H2. destruct c; split; intros H; try discriminate; congruence.
  - apply (cmp_decided (P := fun y => ~ less x y) Hx Hw). intros y c _ _ H1 H2. rewrite <- H1. destruct c; split; intros H; try discriminate; congruence.
  - destruct x as [| | | |s| |]; try (right; split; [intros (s' & p & E & _); discriminate|reflexivity]).
    destruct w as [y|l]; [|right; split; [intros (s' & p & _ & E); discriminate|reflexivity]].
    destruct y as [| | | |p| |]; try (right; split; [intros (s' & p' & _ & E); discriminate|reflexivity]).
    left. split; [exists s, p; split; reflexivity|]. eexists. split; [reflexivity|]. rewrite (fnmatch_spec s (Hp p eq_refl)). split.
    + intros H. exists s, p. split; [reflexivity|]. split; [reflexivity|exact H].
    + intros (s' & p' & E1 & E2 & H). congruence.
Qed.
End Facts.
