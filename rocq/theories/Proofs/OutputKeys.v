(** Keys and references in merge mode, at the level of a run. *)
From Coq Require Import Lia Relations.Relation_Operators.
From Verif Require Import Model.Base Model.Value Model.Names Model.PlanModel Model.Solver Model.PlanBuild Model.Metadata Model.Filters Model.Multiply Model.Materialize Model.Dest Model.Output Model.Sampler.
From Verif Require Import Spec.GraphSpec Spec.SchemaSpec Spec.FilterSpec Spec.OutputSpec Spec.RunSpec.
From Verif Require Import Proofs.BaseFacts Proofs.NameFacts Proofs.MetadataFacts Proofs.PlanRun Proofs.OutputRows Proofs.OutputRun Proofs.OutputDb Proofs.OutputCreate Proofs.OutputCopy Proofs.OutputSample Proofs.OutputMain Proofs.OutputColumn Proofs.OutputMerge.
Set Implicit Arguments. Unset Strict Implicit.
Open Scope list_scope.


Lemma Forall2_impl2 {A B} (P Q : A -> B -> Prop) : (forall a b, P a b -> Q a b) -> forall l l', Forall2 P l l' -> Forall2 Q l l'.
Proof. intros H l l'. induction 1; constructor; auto. Qed.

Section Keys.
Context {G : Type}.
Variable E : env G.
Variable cfg : sampler_config.
Variable p : plan.
Notation queries := (dkeys (p_queries p)).
Notation pass := (p_passthrough p).
Variable c : db_config.
Variable w : world.
Notation rules := (oc_remap c).
Notation to := (lands (en_resub E) rules).

Lemma transfers_transfer ms compact st mults offs whole ts g l g' n' rows : transfers E cfg p ms compact st mults c offs whole ts g l g' -> In (n', rows) l ->
  exists t g0 g1 wh, In t ts /\ transfer E cfg p ms compact st mults c offs wh t g0 n' rows g1 /\ (whole = true -> wh = true).
Proof.
  induction 1 as [g|ts g|t ts g n0 rows0 g' Ht|whole t ts g n0 rows0 g1 l g2 Ht _ IH]; intros Hin; [elim Hin|elim Hin| |].
  - destruct Hin as [Eq|[]]. injection Eq as -> ->. exists t, g, g', false. split; [now left|]. split; [exact Ht|discriminate].
  - destruct Hin as [Eq|Hin].
    + injection Eq as -> ->. exists t, g, g1, true. split; [now left|]. split; [exact Ht|reflexivity].
    + destruct (IH Hin) as (t' & g3 & g4 & wh & A & B & C). exists t', g3, g4, wh. split; [now right|]. split; assumption.
Qed.

Lemma copy_value_off mult offs m i k v o : dget offs k = o -> copy_value mult offs m i k v = copy_value mult (match o with Some z => [(k, z)] | None => [] end) m i k v.
Proof.
  intros H. unfold copy_value. rewrite H. destruct o as [z|]; [|reflexivity]. assert (Hd : dget [(k, z)] k = Some z) by (cbn; destruct (eq_dec k k); congruence). rewrite Hd. reflexivity.
Qed.
Lemma carries_weak mults t co k o rows (wh wh' : bool) : carries cfg mults t co k o wh rows -> (wh' = true -> wh = true) -> carries cfg mults t co k o wh' rows.
Proof. intros (l1 & l2 & A & B & C) H. exists l1, l2. auto. Qed.

Hypothesis Hok : run_ok E cfg c p (w_dest w).
Hypothesis Hnil : trace w = [].
Hypothesis Hq : NoDup queries.

(** Whatever the mode, a column is carried with the offset found for it. *)
Lemma samples_carried w' (whole : bool) order samples ms compact st mults offs g :
  insertion E c p (ds_tables (w_dest w')) order -> sampling_at E cfg c p ms compact st mults offs whole g order samples ->
  (forall a b n', In a queries -> In b queries -> to a n' -> to b n' -> a = b) ->
  (forall n, ~ In n (map fst samples) -> written (trace w') n = []) ->
  (forall n rows, In (n, rows) samples -> initial_part (written (trace w') n) rows /\ (whole = true -> written (trace w') n = rows)) ->
  forall t n' tb k, In t queries -> to t n' -> table_of (ds_tables (w_dest w')) n' tb -> plain_column E cfg p t n' k -> carried E cfg p w' whole t n' k (off offs n' k).
Proof.
  intros (Hno & Hin & _) (Hcb & g' & Htrs) Hinj Hnone Hsome t n' tb k Ht Hto Htb (Hk & Hf & Hcomp).
  assert (Hto2 : In t order) by (apply Hin; split; [exact Ht|exists n', tb; split; assumption]).
  destruct (in_dec (@eq_dec _ _) n' (map fst samples)) as [Hi|Hi].
  - apply in_map_iff in Hi. destruct Hi as ([n2 rows] & En & Hi). cbn in En. subst n2. destruct (Hsome _ _ Hi) as [Hip Hwh]. right.
    destruct (transfers_transfer Htrs Hi) as (t' & g0 & g1 & wh & Ht' & Htr & Hw). apply Hin in Ht'.
    assert (Et : t' = t) by exact (Hinj t' t n' (proj1 Ht') Ht (transfer_lands Htr) Hto). subst t'. destruct Htr as (co & Htr').
    assert (Hres : result_of E cfg p ms compact st t co) by (destruct Htr' as (? & ? & ? & ? & ? & X & _); exact X).
    assert (Htr2 : transfer E cfg p ms compact st mults c offs wh t g0 n' rows g1) by (exists co; exact Htr').
    exists ms, compact, st, mults, co, rows. split; [exact Hcb|]. split; [exact Hres|]. split; [|split; assumption].
    apply carries_weak with (wh := wh); [|exact Hw].
    destruct (transfer_column Htr2 Hres (ro_columns Hok _ _ _ _ _ _ Hcb Hres) (Hk _ _ _ _ _ Hcb Hres) Hf Hcomp) as (l1 & l2 & A & B & C). exists l1, l2. split; [exact A|]. split; [exact B|].
    eapply Forall2_impl2; [|exact C]. intros ri row H. cbn beta in *. rewrite <- (copy_value_off _ _ _ _ (eq_refl : dget (dget_or offs n' []) k = off offs n' k)). exact H.
  - left. split; [|exact (Hnone _ Hi)]. destruct whole; [|reflexivity]. exfalso. apply Hi. destruct (transfers_names Htrs) as (ts1 & _ & Heq & HF). rewrite (Heq eq_refl) in HF.
    destruct (Forall2_In_l HF Hto2) as ([n2 rows] & Hi2 & Hl). cbn in Hl. rewrite (lands_fun Hl Hto) in Hi2. apply in_map_iff. exists (n', rows). split; [reflexivity|exact Hi2].
Qed.

Lemma table_meta db o n' tb : tracked (en_resub E) c queries db o -> (exists t, In t queries /\ to t n') -> table_of db n' tb -> exists m, dget (ou_meta o) n' = Some m /\ tm_table m = tb.
Proof.
  intros Hk (t & Ht & n & Hn & Hg) Htb. assert (Hin : In n' (dkeys (ou_meta o))). { apply (tk_keys Hk). exists n'. split; [exists t, n; auto|]. split; [eauto|apply rt_refl]. }
  apply key_dget in Hin. destruct Hin as (m & Hm). exists m. split; [exact Hm|]. destruct (tk_tables Hk (dget_In Hm)) as [Hm' _].
  destruct Htb as [Hi <-], Hm' as [Hi' He]. exact (NoDup_map_same (tk_names Hk) Hi' Hi He).
Qed.
Lemma room_key d n' k : room d n' k (option_map (fun v => (v + 1)%Z) (max_value (rows_of d n') k)).
Proof.
  assert (H := max_value_spec (rows_of d n') k). destruct (max_value (rows_of d n') k) as [v|]; cbn; [|exact H]. replace (v + 1 - 1)%Z with v by lia. exact H.
Qed.
Lemma key_offset_get d n' tb k : tb_pk tb = [k] -> en_dst_int E n' k = true ->
  dget (key_offsets (en_dst_int E) d n' tb) k = option_map (fun v => (v + 1)%Z) (max_value (rows_of d n') k) /\ key_max (en_dst_int E) d n' tb = max_value (rows_of d n') k.
Proof.
  intros Hp Hi. unfold key_offsets, key_max, merge_key. rewrite Hp, Hi. split; [|reflexivity]. destruct (max_value (rows_of d n') k); cbn; [|reflexivity]. destruct (eq_dec k k); congruence.
Qed.
Lemma key_offset_other is_int d n' tb k : tb_pk tb <> [k] -> dget (key_offsets is_int d n' tb) k = None.
Proof.
  intros Hp. unfold key_offsets, merge_key. destruct (tb_pk tb) as [|k1 [|k2 ks]]; try reflexivity. destruct (is_int n' k1); [|reflexivity].
  destruct (max_value (rows_of d n') k1); [|reflexivity]. cbn. destruct (eq_dec k k1) as [->|]; [congruence|reflexivity].
Qed.

(** The key of a table with no reference in its key column is shifted to make room. *)
Theorem key_carried truncate create g w' r t n n' k : oc_merge c = true -> sample E cfg p truncate create g w = (w', r) ->
  In t queries -> ~ In t pass -> named t n -> goes_to (en_resub E) rules n n' -> int_key E (ds_tables (w_dest w')) n' k ->
  (forall fk, source_fk E cfg p n fk -> fk_cols fk <> [k]) -> plain_column E cfg p t n' k ->
  exists d o, copying_starts E w w' d /\ room d n' k o /\ carried E cfg p w' (succeeded r) t n' k o.
Proof.
  intros Hm Hs Ht Hp Hn Hg (tb & Htb & Hpk & Hint) Hfk Hplain. destruct (merge_trace Hok Hnil Hm Hs) as (d & Hd & Hc). exists d.
  assert (Hto : to t n') by (exists n; split; assumption).
  destruct Hc as [[Hf Hw]|(o1 & o2 & ms & compact & st & mults & order & samples & Hk & Hprep & Hinj & Hins & Hsam & Hnd & Hw0 & Hw1)].
  { exists (option_map (fun v => (v + 1)%Z) (max_value (rows_of d n') k)). split; [exact Hd|]. split; [apply room_key|]. left. split; [exact Hf|apply Hw]. }
  exists (off (ou_offsets o2) n' k). split; [exact Hd|].
  destruct (prepare_spec Hprep Hm Hq Hinj) as (maxes & A & B & C & D).
  destruct (table_meta Hk (ex_intro _ t (conj Ht Hto)) Htb) as (m & Hmeta & Hmt). destruct (C t n n' m Ht Hp Hn Hg Hmeta) as (sm & Hsm & C1 & _).
  split.
  - rewrite C1, Hmt; [rewrite (proj1 (key_offset_get d Hpk Hint)); apply room_key|]. intros fk Hin Hfc. elim (Hfk fk); [|exact Hfc]. exists ms, sm. destruct Hsam as ((X & _) & _). auto.
  - exact (samples_carried Hins Hsam Hinj Hw0 Hw1 Ht Hto Htb Hplain).
Qed.

(** A column referring to a shifted key is shifted with it. *)
Theorem reference_carried truncate create g w' r t n n' k fk td nd' pk : oc_merge c = true -> sample E cfg p truncate create g w = (w', r) ->
  In t queries -> ~ In t pass -> named t n -> goes_to (en_resub E) rules n n' ->
  source_fk E cfg p n fk -> fk_cols fk = [k] -> (forall fk', source_fk E cfg p n fk' -> fk_cols fk' = [k] -> fk_dst fk' = fk_dst fk /\ fk_dst_cols fk' = fk_dst_cols fk) ->
  fk_dst_cols fk = [pk] -> (forall tb, table_of (en_source_schema E) (fk_dst fk) tb -> tb_pk tb = [pk]) ->
  In td queries -> ~ In td pass -> named td (fk_dst fk) -> goes_to (en_resub E) rules (fk_dst fk) nd' -> int_key E (ds_tables (w_dest w')) nd' pk ->
  (exists tb, table_of (ds_tables (w_dest w')) n' tb /\ tb_pk tb <> [k]) ->
  (forall fk', source_fk E cfg p (fk_dst fk) fk' -> fk_cols fk' <> [pk]) ->
  plain_column E cfg p t n' k -> plain_column E cfg p td nd' pk ->
  exists d o, copying_starts E w w' d /\ room d nd' pk o /\ carried E cfg p w' (succeeded r) t n' k o /\ carried E cfg p w' (succeeded r) td nd' pk o.
Proof.
  intros Hm Hs Ht Hp Hn Hg Hfk Hfc Hone Hdc Hsrc Htd Hpd Hnd Hgd (tbd & Htbd & Hpkd & Hintd) (tb & Htb & Hpk) Hfkd Hpl Hpld.
  destruct (merge_trace Hok Hnil Hm Hs) as (d & Hd & Hc). exists d.
  assert (Hto : to t n') by (exists n; split; assumption). assert (Htod : to td nd') by (exists (fk_dst fk); split; assumption).
  destruct Hc as [[Hf Hw]|(o1 & o2 & ms & compact & st & mults & order & samples & Hk & Hprep & Hinj & Hins & Hsam & Hndn & Hw0 & Hw1)].
  { exists (option_map (fun v => (v + 1)%Z) (max_value (rows_of d nd') pk)). split; [exact Hd|]. split; [apply room_key|]. split; left; split; [exact Hf|apply Hw|exact Hf|apply Hw]. }
  exists (off (ou_offsets o2) nd' pk). split; [exact Hd|].
  destruct (prepare_spec Hprep Hm Hq Hinj) as (maxes & A & B & C & D).
  destruct (table_meta Hk (ex_intro _ t (conj Ht Hto)) Htb) as (m & Hmeta & Hmt). destruct (C t n n' m Ht Hp Hn Hg Hmeta) as (sm & Hsm & C1 & C2 & _).
  destruct (table_meta Hk (ex_intro _ td (conj Htd Htod)) Htbd) as (md & Hmetad & Hmtd). destruct (C td (fk_dst fk) nd' md Htd Hpd Hnd Hgd Hmetad) as (smd & Hsmd & C1d & _).
  assert (Hms : sampler_meta (en_fnm E) (en_source_schema E) (p_queries p) (sc_infer cfg) = Ok ms) by (destruct Hsam as ((X & _) & _); exact X).
  assert (Hoffd : off (ou_offsets o2) nd' pk = option_map (fun v => (v + 1)%Z) (max_value (rows_of d nd') pk)).
  { rewrite C1d, Hmtd; [exact (proj1 (key_offset_get d Hpkd Hintd))|]. intros fk' Hin Hc'. elim (Hfkd fk'); [|exact Hc']. exists ms, smd. auto. }
  destruct (sampler_meta_spec (en_fnm E) (p_queries p) (sc_infer cfg) (ro_source Hok)) as (ms' & Hms' & _ & Hmt' & _). rewrite Hms in Hms'. injection Hms' as <-.
  assert (Hrm : forall fk', In fk' (tm_fks sm) -> fk_cols fk' = [k] -> ref_max ms maxes fk' = max_value (rows_of d nd') pk).
  { intros fk' Hin Hc'. destruct (Hone fk') as [E1 E2]; [exists ms, sm; auto|exact Hc'|]. unfold ref_max. rewrite E1, E2, Hsmd, Hdc, (Hsrc _ (Hmt' _ _ (dget_In Hsmd))), eqb_refl, <- (named_eq Hnd).
    destruct (A td nd' Htd Hpd Htod) as (md' & Hmd' & ->). rewrite Hmetad in Hmd'. injection Hmd' as <-. rewrite Hmtd. exact (proj2 (key_offset_get d Hpkd Hintd)). }
  assert (Hoff : off (ou_offsets o2) n' k = off (ou_offsets o2) nd' pk).
  { rewrite Hoffd. destruct (max_value (rows_of d nd') pk) as [v|] eqn:Ev; cbn [option_map].
    - apply C2; [intros fk' Hin Hc'; exact (Hrm fk' Hin Hc')|]. destruct Hfk as (ms2 & sm2 & X & Y & Z). rewrite Hms in X. injection X as <-. rewrite Hsm in Y. injection Y as <-. eauto.
    - rewrite C1 by (intros fk' Hin Hc'; exact (Hrm fk' Hin Hc')). rewrite Hmt. apply key_offset_other. exact Hpk. }
  split; [rewrite Hoffd; apply room_key|]. split; [rewrite <- Hoff; exact (samples_carried Hins Hsam Hinj Hw0 Hw1 Ht Hto Htb Hpl)|exact (samples_carried Hins Hsam Hinj Hw0 Hw1 Htd Htod Htbd Hpld)].
Qed.

(** A column is not shifted if it is not the key and all its references, if any, lead to passthrough tables or to other columns than
    the primary key; nor is any column of a passthrough table. *)
Theorem unshifted truncate create g w' r t n n' k : oc_merge c = true -> sample E cfg p truncate create g w = (w', r) ->
  In t queries -> named t n -> goes_to (en_resub E) rules n n' -> plain_column E cfg p t n' k ->
  (exists tb, table_of (ds_tables (w_dest w')) n' tb /\ (In t pass \/ tb_pk tb <> [k] /\
     forall fk, source_fk E cfg p n fk -> fk_cols fk = [k] ->
       (exists td, named td (fk_dst fk) /\ In td pass) \/ (forall tb, table_of (en_source_schema E) (fk_dst fk) tb -> tb_pk tb <> fk_dst_cols fk))) ->
  carried E cfg p w' (succeeded r) t n' k None.
Proof.
  intros Hm Hs Ht Hn Hg Hpl (tb & Htb & Hwhy). destruct (merge_trace Hok Hnil Hm Hs) as (d & Hd & Hc).
  assert (Hto : to t n') by (exists n; split; assumption).
  destruct Hc as [[Hf Hw]|(o1 & o2 & ms & compact & st & mults & order & samples & Hk & Hprep & Hinj & Hins & Hsam & Hndn & Hw0 & Hw1)]; [left; split; [exact Hf|apply Hw]|].
  destruct (prepare_spec Hprep Hm Hq Hinj) as (maxes & A & B & C & D).
  assert (Hms : sampler_meta (en_fnm E) (en_source_schema E) (p_queries p) (sc_infer cfg) = Ok ms) by (destruct Hsam as ((X & _) & _); exact X).
  destruct (sampler_meta_spec (en_fnm E) (p_queries p) (sc_infer cfg) (ro_source Hok)) as (ms' & Hms' & _ & Hmt' & _). rewrite Hms in Hms'. injection Hms' as <-.
  assert (Hoff : off (ou_offsets o2) n' k = None).
  { destruct (in_dec string_dec t pass) as [Hp|Hp].
    - apply D. intros t' Ht' Hp' Hl. rewrite (Hinj t' t n' Ht' Ht Hl Hto) in Hp'. contradiction.
    - destruct Hwhy as [Hp'|[Hpk Hfk]]; [contradiction|]. destruct (table_meta Hk (ex_intro _ t (conj Ht Hto)) Htb) as (m & Hmeta & Hmt). destruct (C t n n' m Ht Hp Hn Hg Hmeta) as (sm & Hsm & C1 & _).
      rewrite C1, Hmt; [apply key_offset_other; exact Hpk|]. intros fk Hin Hc. unfold ref_max. destruct (dget ms (fk_dst fk)) as [dm|] eqn:Edm; [|reflexivity].
      destruct (eqb (fk_dst_cols fk) (tb_pk (tm_table dm))) eqn:Eq; [|reflexivity]. destruct (Hfk fk) as [(td & Htd & Hpd)|Hne]; [exists ms, sm; auto|exact Hc| |].
      + rewrite <- (named_eq Htd). apply B. now right.
      + apply (proj1 (eqb_true _ _)) in Eq. elim (Hne _ (Hmt' _ _ (dget_In Edm))). congruence. }
  rewrite <- Hoff. exact (samples_carried Hins Hsam Hinj Hw0 Hw1 Ht Hto Htb Hpl).
Qed.

(** Consequences: numbers. *)
Lemma carried_shift w' ok t n' k z : carried E cfg p w' ok t n' k (Some z) ->
  forall row, In row (written (trace w') n') -> exists ms compact st mults co r i, computed_by E cfg p ms compact st mults /\ result_of E cfg p ms compact st t co /\ In r (co_rows co) /\
    (0 <= i < times cfg mults t)%Z /\ copy_value (mult_cols mults t) [(k, z)] (times cfg mults t) i k (rget r k) = Some (rget row k).
Proof.
  intros [[_ H]|(ms & compact & st & mults & co & rows & A & B & (l1 & l2 & Hl & _ & HF) & (l3 & ->) & _)] row Hin; [rewrite H in Hin; elim Hin|].
  destruct (Forall2_In_r HF (in_or_app _ l3 _ (or_introl Hin))) as ([r i] & Hi & Hv). cbn [fst snd] in Hv.
  exists ms, compact, st, mults, co, r, i. split; [exact A|]. split; [exact B|]. assert (Hi' : In (r, i) (each_copy (times cfg mults t) (co_rows co))) by (rewrite Hl; apply in_or_app; now left).
  unfold each_copy in Hi'. apply in_flat_map in Hi'. destruct Hi' as (r0 & Hr & Hi'). apply in_map_iff in Hi'. destruct Hi' as (j & Ej & Hj). injection Ej as -> <-. apply in_seq in Hj.
  split; [exact Hr|]. split; [lia|exact Hv].
Qed.

Lemma each_copy_NoDup (A : Type) m (l : list A) : NoDup l -> NoDup (each_copy m l).
Proof.
  induction l as [|a l IH]; intros H; [constructor|]. inversion H as [|? ? Ha Hl]; subst. unfold each_copy in *. cbn [flat_map]. apply NoDup_app_iff. split; [|split; [exact (IH Hl)|]].
  - apply FinFun.Injective_map_NoDup; [intros x y Hxy; injection Hxy; lia|apply seq_NoDup].
  - intros [x i] Hx Hy. apply in_map_iff in Hx. destruct Hx as (j & Ej & _). injection Ej as <- _. apply in_flat_map in Hy. destruct Hy as (b & Hb & Hy).
    apply in_map_iff in Hy. destruct Hy as (j' & Ej' & _). injection Ej' as -> _. contradiction.
Qed.
Lemma each_copy_range (A : Type) m (l : list A) r i : In (r, i) (each_copy m l) -> In r l /\ (0 <= i < m)%Z.
Proof.
  intros H. unfold each_copy in H. apply in_flat_map in H. destruct H as (r0 & Hr & H). apply in_map_iff in H. destruct H as (j & Ej & Hj). injection Ej as -> <-. apply in_seq in Hj. split; [exact Hr|lia].
Qed.
Lemma NoDup_map_In_inj (A B : Type) (f : A -> B) l : NoDup l -> (forall x y, In x l -> In y l -> f x = f y -> x = y) -> NoDup (map f l).
Proof.
  induction l as [|a l IH]; intros H Hi; [constructor|]. inversion H as [|? ? Ha Hl]; subst. cbn. constructor; [|apply IH; [exact Hl|intros x y Hx Hy; apply Hi; now right]].
  intros F. apply in_map_iff in F. destruct F as (y & Ey & Hy). rewrite (Hi y a (or_intror Hy) (or_introl eq_refl) Ey) in Hy. contradiction.
Qed.
Lemma NoDup_of_map (A B : Type) (f : A -> B) l : NoDup (map f l) -> NoDup l.
Proof. apply NoDup_map_inv. Qed.

Definition shifted (o : option Z) : Z := match o with Some z => z | None => 0%Z end.
Lemma carries_keys mults t co k o ok rows : carries cfg mults t co k o ok rows ->
  (forall r, In r (co_rows co) -> exists z, rget r k = VInt z /\ (0 <= z)%Z) -> NoDup (map (fun r => rget r k) (co_rows co)) ->
  (times cfg mults t = 1%Z \/ In k (mult_cols mults t)) ->
  (forall row, In row rows -> exists z, rget row k = VInt z /\ (shifted o <= z)%Z) /\ NoDup (map (fun r => rget r k) rows).
Proof.
  intros (l1 & l2 & Hl & _ & HF) Hz Hnd Hm.
  set (key := fun ri : row * Z => match rget (fst ri) k with VInt z => if in_dec string_dec k (mult_cols mults t) then (z * times cfg mults t + snd ri + shifted o)%Z else (z + shifted o)%Z | _ => 0%Z end).
  assert (Hin : forall r i, In (r, i) l1 -> In r (co_rows co) /\ (0 <= i < times cfg mults t)%Z).
  { intros r i Hi. apply each_copy_range. rewrite Hl. apply in_or_app. now left. }
  assert (Hkey : Forall2 (fun ri row => rget row k = VInt (key ri)) l1 rows).
  { assert (Hin' : forall ri, In ri l1 -> exists z, rget (fst ri) k = VInt z) by (intros [r i] Hi; destruct (Hz r (proj1 (Hin _ _ Hi))) as (z & E1 & _); eauto).
    clear Hin Hl Hnd Hz. induction HF as [|ri row l rows' Hv HF IH]; [constructor|]. constructor; [|apply IH; intros x Hx; apply Hin'; now right]. clear IH HF.
    destruct (Hin' ri (or_introl eq_refl)) as (z & Ez). unfold key. rewrite Ez in *. unfold copy_value in Hv.
    assert (Hd : dget (match o with Some z => [(k, z)] | None => [] end) k = o). { destruct o; [cbn; destruct (eq_dec k k); congruence|reflexivity]. }
    destruct (in_dec string_dec k (mult_cols mults t)); cbn [times_plus] in Hv; rewrite Hd in Hv; destruct o as [s|]; cbn [times_plus shifted] in *; injection Hv as <-; f_equal; lia. }
  split.
  - intros row Hrow. destruct (Forall2_In_r Hkey Hrow) as ([r i] & Hi & Hv). destruct (Hin _ _ Hi) as [Hr Hr2]. destruct (Hz r Hr) as (z & Ez & Hz0). exists (key (r, i)). split; [exact Hv|].
    unfold key. cbn [fst snd]. rewrite Ez. destruct (in_dec string_dec k (mult_cols mults t)); nia.
  - assert (Heq : map (fun r => rget r k) rows = map (fun ri => VInt (key ri)) l1).
    { clear - Hkey. induction Hkey as [|a b l l' H _ IH]; [reflexivity|]. cbn. rewrite H, IH. reflexivity. }
    rewrite Heq. apply NoDup_map_In_inj.
    + assert (H := each_copy_NoDup (times cfg mults t) (NoDup_of_map Hnd)). rewrite Hl in H. apply NoDup_app_iff in H. apply H.
    + intros [r i] [r' i'] Hi Hi' Hv. injection Hv as Hv. destruct (Hin _ _ Hi) as [Hr Hr2], (Hin _ _ Hi') as [Hr' Hr2'].
      destruct (Hz r Hr) as (z & Ez & Hz0), (Hz r' Hr') as (z' & Ez' & Hz0'). unfold key in Hv. cbn [fst snd] in Hv. rewrite Ez, Ez' in Hv.
      assert (Hzi : z = z' /\ i = i').
      { destruct (in_dec string_dec k (mult_cols mults t)) as [Hk|Hk].
        - assert (z = z') by nia. split; [assumption|]. subst z'. lia.
        - destruct Hm as [Hm|Hm]; [|contradiction]. split; lia. }
      destruct Hzi as [-> ->]. f_equal. exact (NoDup_map_same Hnd Hr Hr' (eq_trans Ez (eq_sym Ez'))).
Qed.

(** C44 *)
Theorem merge_fresh truncate create g w' r t n n' k : oc_merge c = true -> sample E cfg p truncate create g w = (w', r) ->
  In t queries -> ~ In t pass -> named t n -> goes_to (en_resub E) rules n n' -> int_key E (ds_tables (w_dest w')) n' k ->
  (forall fk, source_fk E cfg p n fk -> fk_cols fk <> [k]) -> plain_column E cfg p t n' k -> proper_keys E cfg p t k ->
  exists d, copying_starts E w w' d /\
    (forall row, In row (written (trace w') n') -> exists z, rget row k = VInt z /\ forall old y, In old (rows_of d n') -> rget old k = VInt y -> (y < z)%Z) /\
    NoDup (map (fun r => rget r k) (written (trace w') n')).
Proof.
  intros Hm Hs Ht Hp Hn Hg Hik Hfk Hpl Hpk. destruct (key_carried Hm Hs Ht Hp Hn Hg Hik Hfk Hpl) as (d & o & Hd & Hroom & Hc). exists d. split; [exact Hd|].
  destruct Hc as [[_ ->]|(ms & compact & st & mults & co & rows & A & B & Hca & (l3 & Hip) & _)]; [split; [intros row []|constructor]|].
  destruct (Hpk _ _ _ _ _ A B) as (K1 & K2 & K3). destruct (carries_keys Hca K1 K2 K3) as [R1 R2]. rewrite Hip in R1, R2. split.
  - intros row Hrow. destruct (R1 row (in_or_app _ l3 _ (or_introl Hrow))) as (z & Ez & Hle). exists z. split; [exact Ez|]. intros old y Hold Hy. destruct o as [s|]; cbn [room shifted] in *.
    + destruct Hroom as [_ Hmax]. specialize (Hmax old y Hold Hy). lia.
    + elim (Hroom old y Hold Hy).
  - rewrite map_app in R2. apply NoDup_app_iff in R2. apply R2.
Qed.
(** C46 *)
Theorem merge_formula truncate create g w' r t n n' k : oc_merge c = true -> sample E cfg p truncate create g w = (w', r) ->
  In t queries -> ~ In t pass -> named t n -> goes_to (en_resub E) rules n n' -> int_key E (ds_tables (w_dest w')) n' k ->
  (forall fk, source_fk E cfg p n fk -> fk_cols fk <> [k]) -> plain_column E cfg p t n' k ->
  exists d, copying_starts E w w' d /\ forall z, largest (rows_of d n') k z -> (0 <= z)%Z -> carried E cfg p w' (succeeded r) t n' k (Some (Z.max 0 z + 1)%Z).
Proof.
  intros Hm Hs Ht Hp Hn Hg Hik Hfk Hpl. destruct (key_carried Hm Hs Ht Hp Hn Hg Hik Hfk Hpl) as (d & o & Hd & Hroom & Hc). exists d. split; [exact Hd|]. intros z Hz H0.
  destruct o as [s|]; cbn [room] in Hroom; [|destruct Hz as [(r0 & Hr0 & E0) _]; elim (Hroom r0 z Hr0 E0)].
  rewrite Z.max_r by lia. rewrite <- (largest_fun Hroom Hz). replace (s - 1 + 1)%Z with s by lia. exact Hc.
Qed.

(** C44, references in the key column included: the key is shifted to make room in its own table or in a referenced one. *)
Theorem key_settled truncate create g w' r t n n' k : oc_merge c = true -> sample E cfg p truncate create g w = (w', r) ->
  In t queries -> ~ In t pass -> named t n -> goes_to (en_resub E) rules n n' -> int_key E (ds_tables (w_dest w')) n' k -> plain_column E cfg p t n' k ->
  exists d o, copying_starts E w w' d /\ carried E cfg p w' (succeeded r) t n' k o /\
    (room d n' k o \/
     exists fk nd' kd z, source_fk E cfg p n fk /\ fk_cols fk = [k] /\ goes_to (en_resub E) rules (fk_dst fk) nd' /\
       int_key E (ds_tables (w_dest w')) nd' kd /\ o = Some z /\ largest (rows_of d nd') kd (z - 1)%Z).
Proof.
  intros Hm Hs Ht Hp Hn Hg (tb & Htb & Hpk & Hint) Hplain. destruct (merge_trace Hok Hnil Hm Hs) as (d & Hd & Hc). exists d.
  assert (Hto : to t n') by (exists n; split; assumption).
  destruct Hc as [[Hf Hw]|(o1 & o2 & ms & compact & st & mults & order & samples & Hk & Hprep & Hinj & Hins & Hsam & Hnd & Hw0 & Hw1)].
  { exists (option_map (fun v => (v + 1)%Z) (max_value (rows_of d n') k)). split; [exact Hd|]. split; [|left; apply room_key]. left. split; [exact Hf|apply Hw]. }
  exists (off (ou_offsets o2) n' k). split; [exact Hd|]. split; [exact (samples_carried Hins Hsam Hinj Hw0 Hw1 Ht Hto Htb Hplain)|].
  destruct (prepare_spec Hprep Hm Hq Hinj) as (maxes & A & B & C & D).
  destruct (table_meta Hk (ex_intro _ t (conj Ht Hto)) Htb) as (m & Hmeta & Hmt). destruct (C t n n' m Ht Hp Hn Hg Hmeta) as (sm & Hsm & _ & _ & C3).
  assert (Hms : sampler_meta (en_fnm E) (en_source_schema E) (p_queries p) (sc_infer cfg) = Ok ms) by (destruct Hsam as ((X & _) & _); exact X).
  destruct (settled_cases (C3 k)) as [[-> _]|(fk & v & Hfk & Hfc & Hrm & ->)].
  { left. rewrite Hmt, (proj1 (key_offset_get d Hpk Hint)). apply room_key. }
  right. unfold ref_max in Hrm. destruct (dget ms (fk_dst fk)) as [dm|] eqn:Edm; [|discriminate].
  destruct (eqb (fk_dst_cols fk) (tb_pk (tm_table dm))) eqn:Eq; [|discriminate].
  destruct (sampler_meta_spec (en_fnm E) (p_queries p) (sc_infer cfg) (ro_source Hok)) as (ms' & Hms' & _ & _ & Hmat). rewrite Hms in Hms'. injection Hms' as <-.
  assert (Hdot : no_dot (fst (fk_dst fk))). { destruct (proj1 (Hmat _) (dget_Some_key Edm)) as (tt0 & s0 & p0 & _ & Hx & _). exact (proj2 Hx). }
  assert (Hpl : In (render (fk_dst fk)) queries /\ ~ In (render (fk_dst fk)) pass).
  { destruct (in_dec string_dec (render (fk_dst fk)) queries) as [Hi|Hi]; [|rewrite B in Hrm; [discriminate|now left]].
    destruct (in_dec string_dec (render (fk_dst fk)) pass) as [Hi2|Hi2]; [rewrite B in Hrm; [discriminate|now right]|]. split; assumption. }
  destruct Hpl as [Hpl Hnp].
  assert (Htod : exists nd', goes_to (en_resub E) rules (fk_dst fk) nd').
  { unfold table_remap in *. pose proof (tk_remap Hk) as Hrmp. unfold table_remap in Hrmp. destruct (remap_loop Hrmp) as (_ & _ & _ & Hall); [constructor|].
    destruct (Hall _ Hpl) as (key & (n0 & n0' & Hn0 & Hg0 & _) & _). exists n0'. rewrite (named_fun (named_render Hdot) Hn0). exact Hg0. }
  destruct Htod as (nd' & Hgd). destruct (A (render (fk_dst fk)) nd' Hpl Hnp) as (md & Hmd & Emx); [exists (fk_dst fk); split; [apply named_render; exact Hdot|exact Hgd]|].
  rewrite Emx in Hrm. unfold key_max, merge_key in Hrm. destruct (tb_pk (tm_table md)) as [|kd [|k2 ks]] eqn:Epd; try discriminate.
  destruct (en_dst_int E nd' kd) eqn:Ei; [|discriminate]. exists fk, nd', kd, (v + 1)%Z.
  split; [exists ms, sm; auto|]. split; [exact Hfc|]. split; [exact Hgd|]. split; [exists (tm_table md); split; [exact (proj1 (tk_tables Hk (dget_In Hmd)))|split; assumption]|].
  split; [reflexivity|]. replace (v + 1 - 1)%Z with v by lia. apply (proj1 (max_value_largest _ _ _)). exact Hrm.
Qed.
Theorem merge_fresh_consistent truncate create g w' r t n n' k : oc_merge c = true -> sample E cfg p truncate create g w = (w', r) ->
  In t queries -> ~ In t pass -> named t n -> goes_to (en_resub E) rules n n' -> int_key E (ds_tables (w_dest w')) n' k ->
  plain_column E cfg p t n' k -> proper_keys E cfg p t k ->
  (forall d fk nd' kd row y, copying_starts E w w' d -> source_fk E cfg p n fk -> fk_cols fk = [k] -> goes_to (en_resub E) rules (fk_dst fk) nd' ->
     int_key E (ds_tables (w_dest w')) nd' kd -> In row (rows_of d n') -> rget row k = VInt y -> exists row', In row' (rows_of d nd') /\ rget row' kd = VInt y) ->
  exists d, copying_starts E w w' d /\
    (forall row, In row (written (trace w') n') -> exists z, rget row k = VInt z /\ forall old y, In old (rows_of d n') -> rget old k = VInt y -> (y < z)%Z) /\
    NoDup (map (fun r => rget r k) (written (trace w') n')).
Proof.
  intros Hm Hs Ht Hp Hn Hg Hik Hpl Hpk Hcons. destruct (key_settled Hm Hs Ht Hp Hn Hg Hik Hpl) as (d & o & Hd & Hc & Hroom). exists d. split; [exact Hd|].
  assert (Hbound : forall old y, In old (rows_of d n') -> rget old k = VInt y -> (y < shifted o)%Z).
  { intros old y Hold Hy. destruct Hroom as [Hroom|(fk & nd' & kd & z & Hfk & Hfc & Hgd & Hikd & -> & Hl)].
    - destruct o as [s|]; cbn [room shifted] in *; [destruct Hroom as [_ Hmax]; specialize (Hmax old y Hold Hy); lia|elim (Hroom old y Hold Hy)].
    - cbn [shifted]. destruct (Hcons d fk nd' kd old y Hd Hfk Hfc Hgd Hikd Hold Hy) as (row' & Hr' & Ey). destruct Hl as [_ Hmax]. specialize (Hmax row' y Hr' Ey). lia. }
  destruct Hc as [[_ ->]|(ms & compact & st & mults & co & rows & A & B & Hca & (l3 & Hip) & _)]; [split; [intros row []|constructor]|].
  destruct (Hpk _ _ _ _ _ A B) as (K1 & K2 & K3). destruct (carries_keys Hca K1 K2 K3) as [R1 R2]. rewrite Hip in R1, R2. split.
  - intros row Hrow. destruct (R1 row (in_or_app _ l3 _ (or_introl Hrow))) as (z & Ez & Hle). exists z. split; [exact Ez|]. intros old y Hold Hy. specialize (Hbound old y Hold Hy). lia.
  - rewrite map_app in R2. apply NoDup_app_iff in R2. apply R2.
Qed.

End Keys.
