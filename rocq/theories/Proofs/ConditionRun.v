(** Multiplex filters with Python's operators, and filters that never fail. *)
From Coq Require Import Lia String Ascii List NArith ZArith QArith Bool.
From Verif Require Import Model.Base Model.Value Model.Filters Model.Fnmatch Model.Output Model.PyCompare Spec.PatternSpec Spec.FilterSpec Spec.ConditionSpec.
From Verif Require Import Proofs.BaseFacts Proofs.FilterFacts Proofs.FilterMain Proofs.PatternFacts Proofs.ConditionFacts.
Set Implicit Arguments. Unset Strict Implicit.
Open Scope list_scope.

Section Facts.
Variable same_object : value -> value -> bool.
Variable other_eq : value -> value -> bool.
Variable other_cmp : value -> value -> res filter_exn comparison.
Notation cis := (c_is same_object).
Notation cin := (c_in other_eq).
Notation ceq := (c_eq other_eq).
Notation clt := (c_lt other_cmp). Notation cgt := (c_gt other_cmp). Notation cle := (c_le other_cmp). Notation cge := (c_ge other_cmp).
Notation decides := (match_condition same_object other_eq other_cmp).
Context {G : Type}.
Variable randint : Z -> Z -> G -> res filter_exn (Z * G).
Variable uniform : Q -> Q -> G -> Q * G.
Variable rand_index : nat -> G -> nat * G.
Variable uuid4 : G -> string * G.
Variable fake : string -> bool -> G -> res filter_exn (value * G).
Variable load_plugin : string -> string -> bool.
Variable plugin : string -> string -> list value -> G -> res filter_exn (list value * G).
Notation run_filter := (apply_sview randint uniform rand_index uuid4 fake plugin).
Notation run_multiplex := (multiplex randint uniform rand_index uuid4 fake plugin cis cin ceq clt cgt cle cge c_matches).
Notation run_view := (apply_view randint uniform rand_index uuid4 fake plugin cis cin ceq clt cgt cle cge c_matches).
Notation run_chain := (apply_chain randint uniform rand_index uuid4 fake plugin cis cin ceq clt cgt cle cge c_matches).
Notation construct := (construct_chain load_plugin).
Notation construct_filter := (construct_simple load_plugin).

Definition asked (k : mcond) (x : value) : Prop := sensible (mc_op k) x (mc_value k).
Definition answered (k : mcond) (x : value) : Prop := said (mc_op k) x (mc_value k).
Lemma decided_true k x : plain_condition (mc_op k) (mc_value k) -> ordinary x -> ordinary_values (mc_value k) -> asked k x -> answered k x -> decides k x = Ok true.
Proof.
  intros Hp Hx Hw Ha Hs. destruct (condition_decided same_object other_eq other_cmp Hp Hx Hw) as [(_ & b & E & Hb)|(Hn & _)]; [|destruct (Hn Ha)].
  rewrite E. f_equal. apply Hb. exact Hs.
Qed.
Lemma decided_false k x : plain_condition (mc_op k) (mc_value k) -> ordinary x -> ordinary_values (mc_value k) -> asked k x -> ~ answered k x -> decides k x = Ok false.
Proof.
  intros Hp Hx Hw Ha Hs. destruct (condition_decided same_object other_eq other_cmp Hp Hx Hw) as [(_ & b & E & Hb)|(Hn & _)]; [|destruct (Hn Ha)].
  rewrite E. f_equal. destruct b; [|reflexivity]. destruct (Hs (proj1 Hb eq_refl)).
Qed.
Lemma undecided k x : plain_condition (mc_op k) (mc_value k) -> ordinary x -> ordinary_values (mc_value k) -> ~ asked k x -> decides k x = Err FxTypeError.
Proof.
  intros Hp Hx Hw Ha. destruct (condition_decided same_object other_eq other_cmp Hp Hx Hw) as [(H & _)|(_ & E)]; [destruct (Ha H)|exact E].
Qed.

Theorem conditions_first cols col conds v r g x : NoDup cols ->
  construct_view load_plugin (FcMultiplex col conds) cols = Ok v -> value_of cols r col = Some x -> ordinary x ->
  (forall k, In k conds -> plain_condition (mc_op k) (mc_value k) /\ ordinary_values (mc_value k)) ->
  (forall pre k post, conds = pre ++ k :: post -> (forall k', In k' pre -> asked k' x /\ ~ answered k' x) ->
     (asked k x -> answered k x -> exists f, construct_filter (mc_apply k) cols = Ok f /\ run_view v r g = run_filter f r g) /\
     (~ asked k x -> run_view v r g = Err FxTypeError)) /\
  ((forall k, In k conds -> asked k x /\ ~ answered k x) -> run_view v r g = Ok (r, g)).
Proof.
  intros N C Hx Ho Hk. apply cview_built in C.
  inversion C as [|col' conds' i vs Hi F E1 E2]; subst. cbn [apply_view]. assert (list_get r i = Ok x) as ->.
  { unfold list_get. rewrite (value_of_nth r N Hi) in Hx. rewrite Hx. auto. }
  cbn [bind]. clear C Hi Hx. induction F as [|k f conds vs [Hf Hout] F IH]; cbn [multiplex combine].
  - split; [|auto]. intros [|]; discriminate.
  - destruct (Hk k (or_introl eq_refl)) as [Hp Hw]. destruct (IH (fun k' H => Hk k' (or_intror H))) as [IH1 IH2]. fold decides. split.
    + intros [|k0 pre] k' post E Hpre; cbn in E; injection E as -> E.
      * split.
        -- intros Ha Hs. change (cond_match cis cin ceq clt cgt cle cge c_matches) with decides. rewrite (decided_true Hp Ho Hw Ha Hs). cbn. eauto.
        -- intros Ha. change (cond_match cis cin ceq clt cgt cle cge c_matches) with decides. rewrite (undecided Hp Ho Hw Ha). reflexivity.
      * destruct (Hpre k0 (or_introl eq_refl)) as [Ha Hs]. change (cond_match cis cin ceq clt cgt cle cge c_matches) with decides.
        rewrite (decided_false Hp Ho Hw Ha Hs). cbn [bind]. apply (IH1 pre k' post E). intros k1 H1. apply Hpre. right. exact H1.
    + intros Hall. destruct (Hall k (or_introl eq_refl)) as [Ha Hs]. change (cond_match cis cin ceq clt cgt cle cge c_matches) with decides.
      rewrite (decided_false Hp Ho Hw Ha Hs). cbn [bind]. apply IH2. intros k1 H1. apply Hall. right. exact H1.
Qed.

(** ** Filters that never fail *)
Hypothesis randint_works : forall low high g, (low <= high)%Z -> exists z g', randint low high g = Ok (z, g').
(** With [strict], values of other types do not occur, and zeroing is safe. *)
Variable strict : bool.
Definition ok (v : value) : Prop := strict = true -> ordinary v.
Lemma ok_ordinary v : ordinary v -> ok v.
Proof. intros H _. exact H. Qed.

Lemma draws_work {A} (f : G -> res filter_exn (A * G)) (P : A -> Prop) : (forall g, exists a g', f g = Ok (a, g') /\ P a) ->
  forall n g, exists l g', draws f n g = Ok (l, g') /\ length l = n /\ (forall a, In a l -> P a).
Proof.
  intros Hf. induction n as [|n IH]; intros g; cbn [draws].
  - exists [], g. repeat split. intros a [].
  - destruct (Hf g) as (a & g1 & -> & Ha). cbn [bind]. destruct (IH g1) as (l & g2 & -> & Hl & Hp). cbn [bind].
    exists (a :: l), g2. split; [reflexivity|]. split; [cbn; congruence|]. intros b [<-|Hb]; [exact Ha|exact (Hp b Hb)].
Qed.
Lemma zero_works vs : (forall v, In v vs -> ordinary v) -> exists l, mapM zero_value vs = Ok l /\ (forall v, In v l -> ordinary v).
Proof.
  induction vs as [|v vs IH]; intros Hv; cbn [mapM].
  - exists []. split; [reflexivity|intros v []].
  - destruct IH as (l & -> & Hl); [intros w Hw; apply Hv; right; exact Hw|].
    assert (exists w, zero_value v = Ok w /\ ordinary w) as (w & -> & Hw).
    { specialize (Hv v (or_introl eq_refl)). destruct v; cbn; try (eexists; split; [reflexivity|intros k E; discriminate]). destruct (Hv k eq_refl). }
    cbn [bind]. exists (w :: l). split; [reflexivity|]. intros u [<-|Hu]; [exact Hw|exact (Hl u Hu)].
Qed.
Lemma list_set_in {A} (l : list A) : forall i x y, In y (list_set l i x) -> y = x \/ In y l.
Proof.
  induction l as [|z l IH]; intros i x y; [intros []|]. destruct i; cbn [list_set].
  - intros [<-|H]; [left; reflexivity|right; right; exact H].
  - intros [<-|H]; [right; left; reflexivity|]. destruct (IH _ _ _ H) as [E|E]; [left; exact E|right; right; exact E].
Qed.
Lemma written_in (l : list (nat * value)) : forall vs y, In y (fold_left (fun out iv => list_set out (fst iv) (snd iv)) l vs) -> In y vs \/ exists i, In (i, y) l.
Proof.
  induction l as [|[i x] l IH]; intros vs y; cbn [fold_left].
  - intros H. left. exact H.
  - intros H. destruct (IH _ _ H) as [H1|(j & H1)]; [|right; exists j; right; exact H1].
    destruct (list_set_in H1) as [->|H2]; [right; exists i; left; reflexivity|left; exact H2].
Qed.
Lemma gets idx (r : list value) : (forall i, In i idx -> i < length r)%nat -> exists vs, mapM (list_get r) idx = Ok vs /\ length vs = length idx /\ (forall v, In v vs -> In v r).
Proof.
  induction idx as [|i idx IH]; intros Hi; cbn [mapM].
  - exists []. repeat split. intros v [].
  - unfold list_get at 1. destruct (nth_error r i) as [x|] eqn:E; [|apply nth_error_None in E; specialize (Hi i (or_introl eq_refl)); lia].
    cbn [bind]. destruct IH as (vs & -> & Hl & Hv); [intros j Hj; apply Hi; right; exact Hj|]. cbn [bind].
    exists (x :: vs). split; [reflexivity|]. split; [cbn; congruence|]. intros v [<-|H]; [exact (nth_error_In _ _ E)|exact (Hv v H)].
Qed.
Lemma indexes_fit cols acts idx : Forall2 (fun c i => dget (column_index_map cols) c = Some i) acts idx -> forall i, In i idx -> (i < length cols)%nat.
Proof.
  induction 1 as [|c i acts idx Hc H IH]; intros j; [intros []|]. intros [<-|Hj]; [|exact (IH j Hj)].
  apply index_map_Some in Hc. apply nth_error_Some. congruence.
Qed.

(** What a filter that is safe does. *)
Definition safe_action (a : action) : Prop :=
  match a with
  | AZero => strict = true
  | AConstant vals => forall v, In v vals -> ordinary v
  | ARandomInt low high => (low <= high)%Z
  | AFake _ _ | APlugin _ _ => False
  | _ => True
  end.
Lemma columns_action cols cs a v : filter_columns cols cs a = Ok v -> exists idx, v = SvColumns cols cs idx a.
Proof. unfold filter_columns. intros H. apply bind_Ok in H. destruct H as (idx & _ & E). inversion E. exists idx. reflexivity. Qed.
Lemma safe_built cols s v : construct_filter s cols = Ok v -> safe_simple s -> (zeroes s -> strict = true) ->
  (exists out idx, v = SvOmit cols out idx) \/ exists acts idx a, v = SvColumns cols acts idx a /\ safe_action a.
Proof.
  intros C Hs Hz. destruct s; cbn [construct_simple] in C; cbn [safe_simple] in Hs; try contradiction;
    try (right; apply columns_action in C; destruct C as (idx & ->); eexists; eexists; eexists; split; [reflexivity|exact Hs || exact I || (apply Hz; eexists; reflexivity)]).
  - left. apply filter_omit_Ok in C. destruct C as (out & idx & -> & _). exists out, idx. reflexivity.
  - right. apply bind_Ok in C. destruct C as (v' & C & E). destruct (Nat.eqb (length vals) (length cols0)); [|discriminate]. injection E as <-.
    apply columns_action in C. destruct C as (idx & ->). eexists; eexists; eexists. split; [reflexivity|exact Hs].
  - right. destruct (match dget alphabet_map alphabet with Some s => Some s | None => custom end) as [[|]|]; try discriminate.
    apply columns_action in C. destruct C as (idx & ->). eexists; eexists; eexists. split; [reflexivity|exact I].
Qed.
Lemma action_works a vs g : safe_action a -> (forall v, In v vs -> ok v) ->
  exists fs g', filter_values randint uniform rand_index uuid4 fake plugin a vs g = Ok (fs, g') /\ (forall v, In v fs -> ok v).
Proof.
  intros Ha Hv. destruct a; cbn [filter_values]; cbn [safe_action] in Ha; try contradiction.
  - destruct (zero_works (fun v Hi => Hv v Hi Ha)) as (l & -> & Hl). exists l, g. split; [reflexivity|]. intros v Hi. exact (ok_ordinary (Hl v Hi)).
  - eexists; eexists. split; [reflexivity|]. intros v H. apply repeat_spec in H. subst v. apply ok_ordinary. intros k E. discriminate.
  - eexists; eexists. split; [reflexivity|]. intros v Hi. exact (ok_ordinary (Ha v Hi)).
  - destruct (@draws_work value (fun g => let* (z, g) := randint low high g in Ok (VInt z, g)) ordinary) with (n := length vs) (g := g) as (l & g' & E & _ & Hl).
    { intros g0. destruct (randint_works g0 Ha) as (z & g1 & ->). exists (VInt z), g1. split; [reflexivity|intros k E; discriminate]. }
    exists l, g'. split; [exact E|]. intros v Hi. exact (ok_ordinary (Hl v Hi)).
  - destruct (@draws_work value (fun g => let '(q, g) := uniform low high g in Ok (VFloat q, g)) ordinary) with (n := length vs) (g := g) as (l & g' & E & _ & Hl).
    { intros g0. destruct (uniform low high g0) as [q g1]. exists (VFloat q), g1. split; [reflexivity|intros k E; discriminate]. }
    exists l, g'. split; [exact E|]. intros v Hi. exact (ok_ordinary (Hl v Hi)).
  - destruct (@draws_work value (fun g => let '(s, g) := random_chars rand_index alphabet (Z.to_nat len) g in Ok (VStr s, g)) ordinary) with (n := length vs) (g := g) as (l & g' & E & _ & Hl).
    { intros g0. destruct (random_chars rand_index alphabet (Z.to_nat len) g0) as [q g1]. exists (VStr q), g1. split; [reflexivity|intros k E; discriminate]. }
    exists l, g'. split; [exact E|]. intros v Hi. exact (ok_ordinary (Hl v Hi)).
  - destruct (@draws_work value (fun g => let '(s, g) := uuid4 g in Ok (VStr s, g)) ordinary) with (n := length vs) (g := g) as (l & g' & E & _ & Hl).
    { intros g0. destruct (uuid4 g0) as [q g1]. exists (VStr q), g1. split; [reflexivity|intros k E; discriminate]. }
    exists l, g'. split; [exact E|]. intros v Hi. exact (ok_ordinary (Hl v Hi)).
Qed.
Definition fine (cols : list string) (r : list value) : Prop := length r = length cols /\ forall v, In v r -> ok v.
Lemma simple_works cols s v r g : construct_filter s cols = Ok v -> safe_simple s -> (zeroes s -> strict = true) -> fine cols r -> exists r' g', run_filter v r g = Ok (r', g') /\ fine (sv_out v) r'.
Proof.
  intros C Hs Hz [Hl Hr]. pose proof (csimple_built C) as B.
  assert (exists r' g', run_filter v r g = Ok (r', g') /\ forall x, In x r' -> ok x) as (r' & g' & E & H).
  { destruct (safe_built C Hs Hz) as [(out & idx & ->)|(acts & idx & a & -> & Ha)].
    - assert (Hi : forall i, In i idx -> (i < length r)%nat).
      { rewrite Hl. inversion B as [|acts0 out0 idx0 E1 E2 F]; subst. exact (indexes_fit F). }
      destruct (gets Hi) as (vs & Ev & _ & Hv). cbn [apply_sview]. rewrite Ev. cbn [bind]. exists vs, g. split; [reflexivity|]. intros x Hx. exact (Hr x (Hv x Hx)).
    - assert (Hi : forall i, In i idx -> (i < length r)%nat).
      { rewrite Hl. inversion B as [acts0 idx0 a0 E1 E2 N Hin F Hc|]; subst. exact (indexes_fit F). }
      destruct (gets Hi) as (vs & Ev & _ & Hv). cbn [apply_sview]. rewrite Ev. cbn [bind].
      destruct (@action_works a vs g Ha (fun x Hx => Hr x (Hv x Hx))) as (fs & g' & -> & Hf). cbn [bind]. eexists; eexists. split; [reflexivity|].
      intros x Hx. destruct (written_in Hx) as [H|(i & H)]; [exact (Hr x H)|]. apply in_combine_r in H. exact (Hf x H). }
  exists r', g'. split; [exact E|]. split; [|exact H]. exact (asview_length B Hl E).
Qed.
Lemma total_decides k x : total_condition k -> exists b, decides k x = Ok b.
Proof.
  unfold match_condition, cond_match, total_condition. destruct (mc_op k); intros H; try contradiction; try (eexists; reflexivity).
  - destruct H as (l & ->). eexists. reflexivity.
  - destruct H as (l & ->). eexists. reflexivity.
Qed.
Lemma view_works cols f v r g : construct_view load_plugin f cols = Ok v -> safe_filter f -> (may_zero f -> strict = true) -> fine cols r -> exists r' g', run_view v r g = Ok (r', g') /\ fine (vw_out v) r'.
Proof.
  intros C Hs Hz Hf. apply cview_built in C. destruct C as [s v C|col conds i vs Hi F]; cbn [apply_view vw_out].
  - exact (simple_works g C Hs Hz Hf).
  - assert (exists x, list_get r i = Ok x) as (x & ->).
    { unfold list_get. destruct (nth_error r i) as [x|] eqn:E; [exists x; reflexivity|]. apply nth_error_None in E.
      assert (i < length cols)%nat by (apply nth_error_Some; congruence). destruct Hf as [Hl _]. lia. }
    cbn [bind]. clear Hi. cbn [safe_filter] in Hs. induction F as [|k f conds vs [Hc Ho] F IH]; cbn [multiplex combine].
    + exists r, g. split; [reflexivity|exact Hf].
    + destruct (Hs k (or_introl eq_refl)) as [Ht Hk]. change (cond_match cis cin ceq clt cgt cle cge c_matches) with decides.
      destruct (total_decides x Ht) as ([|] & ->); cbn [bind].
      * destruct (simple_works g Hc Hk (fun Hy => Hz (ex_intro _ k (conj (or_introl eq_refl) Hy))) Hf) as (r' & g' & E & H). exists r', g'. split; [exact E|]. rewrite <- Ho. exact H.
      * apply IH; [intros k' H'; apply Hs; right; exact H'|]. intros (k' & H' & Hy). apply Hz. exists k'. split; [right; exact H'|exact Hy].
Qed.
Theorem chain_works : forall fs cols chain out r g, construct fs cols = Ok (chain, out) -> (forall f, In f fs -> safe_filter f) -> (forall f, In f fs -> may_zero f -> strict = true) -> length r = length cols ->
  (forall v, In v r -> ok v) -> exists r' g', run_chain chain r g = Ok (r', g').
Proof.
  induction fs as [|f fs IH]; intros cols chain out r g C Hs Hz Hl Hr; cbn [construct_chain] in C.
  - injection C as <- <-. exists r, g. reflexivity.
  - apply bind_Ok in C. destruct C as (v & Hv & C). apply bind_Ok in C. destruct C as ([vs out'] & C & E). injection E as <- <-. cbn [apply_chain].
    destruct (view_works g Hv (Hs f (or_introl eq_refl)) (Hz f (or_introl eq_refl)) (conj Hl Hr)) as (r' & g' & -> & Hl' & Hr'). cbn [bind].
    apply (IH _ _ _ _ _ C); [intros f' H'; apply Hs; right; exact H'|intros f' H'; apply Hz; right; exact H'|exact Hl'|exact Hr'].
Qed.
End Facts.

(** ** As the sampler runs them *)
From Verif Require Import Model.Names Model.PlanModel Model.Metadata Model.Planner Model.Sampler Spec.SampleSpec Spec.RunSpec Spec.CompleteSpec.
Section Run.
Variable same_object : value -> value -> bool.
Variable other_eq : value -> value -> bool.
Variable other_cmp : value -> value -> res filter_exn comparison.
Context {G : Type}.
Variable F : filter_env G.
Notation env_of := (python_env same_object other_eq other_cmp F).
Notation run_filter := (apply_sview (fe_randint F) (fe_uniform F) (fe_index F) (fe_uuid4 F) (fe_fake F) (fe_plugin F)).
Notation run v := (run_filters env_of [v]).

Lemma one_view v r g : run v r g = apply_view (fe_randint F) (fe_uniform F) (fe_index F) (fe_uuid4 F) (fe_fake F) (fe_plugin F)
  (c_is same_object) (c_in other_eq) (c_eq other_eq) (c_lt other_cmp) (c_gt other_cmp) (c_le other_cmp) (c_ge other_cmp) c_matches v r g.
Proof. unfold run_filters. cbn. match goal with |- bind ?x _ = _ => destruct x as [[r' g']|e] end; reflexivity. Qed.
Theorem conditions_run cols col conds v r g x : NoDup cols ->
  construct_view (fe_load_plugin F) (FcMultiplex col conds) cols = Ok v -> value_of cols r col = Some x -> ordinary x ->
  (forall k, In k conds -> plain_condition (mc_op k) (mc_value k) /\ ordinary_values (mc_value k)) ->
  (forall pre k post, conds = pre ++ k :: post ->
     (forall k', In k' pre -> sensible (mc_op k') x (mc_value k') /\ ~ said (mc_op k') x (mc_value k')) ->
     (sensible (mc_op k) x (mc_value k) -> said (mc_op k) x (mc_value k) ->
        exists f, construct_simple (fe_load_plugin F) (mc_apply k) cols = Ok f /\ run v r g = run_filter f r g) /\
     (~ sensible (mc_op k) x (mc_value k) -> run v r g = Err FxTypeError)) /\
  ((forall k, In k conds -> sensible (mc_op k) x (mc_value k) /\ ~ said (mc_op k) x (mc_value k)) -> run v r g = Ok (r, g)).
Proof. intros N C Hv Ho Hk. rewrite one_view. eapply conditions_first; eassumption. Qed.

Hypothesis randint_works : forall low high g, (low <= high)%Z -> exists z g', fe_randint F low high g = Ok (z, g').
Theorem safe_ordinary fs cols chain out r g : construct_chain (fe_load_plugin F) fs cols = Ok (chain, out) -> (forall f, In f fs -> safe_filter f) ->
  length r = length cols -> (forall v, In v r -> ordinary v) -> exists r' g', run_filters env_of chain r g = Ok (r', g').
Proof.
  intros C Hs Hl Hr. eapply (@chain_works same_object other_eq other_cmp) with (strict := true); try eassumption; [reflexivity|].
  intros v Hv _. exact (Hr v Hv).
Qed.
Theorem safe_work (E : env G) cfg p : en_filters E = env_of -> (forall t f, In f (filters_of cfg t) -> safe_filter f /\ ~ may_zero f) -> filters_work E cfg p.
Proof.
  intros HE Hs t tb chain cols r g (_ & _ & C) Hl. rewrite HE in C |- *. cbn [python_env fe_load_plugin] in C.
  assert (exists r' g', run_filters env_of chain r g = Ok (r', g')) as (r' & g' & H); [|exists (r', g'); exact H].
  eapply (@chain_works same_object other_eq other_cmp) with (strict := false); try eassumption.
  - intros f Hf. exact (proj1 (Hs t f Hf)).
  - intros f Hf Hz. destruct (proj2 (Hs t f Hf) Hz).
  - intros v _ H. discriminate H.
Qed.
End Run.
