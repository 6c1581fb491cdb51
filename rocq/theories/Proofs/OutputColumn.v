(** What becomes of one column on its way to the destination. *)
From Coq Require Import Lia.
From Verif Require Import Model.Base Model.Value Model.Names Model.PlanModel Model.Solver Model.PlanBuild Model.Metadata Model.Filters Model.Multiply Model.Materialize Model.Dest Model.Output Model.Sampler.
From Verif Require Import Spec.GraphSpec Spec.SchemaSpec Spec.FilterSpec Spec.OutputSpec Spec.RunSpec.
From Verif Require Import Proofs.BaseFacts Proofs.NameFacts Proofs.MetadataFacts Proofs.FilterFacts Proofs.OutputRows Proofs.OutputRun Proofs.OutputDb Proofs.OutputCreate Proofs.OutputCopy Proofs.OutputSample Proofs.OutputMain.
Set Implicit Arguments. Unset Strict Implicit.
Open Scope list_scope.

Lemma value_key cols r k x : value_of cols r k = Some x -> In k cols.
Proof. unfold value_of. intros H. apply dget_In in H. apply in_combine_l in H. exact H. Qed.
Lemma Forall2_value (P : string -> value -> value -> Prop) : forall cols f out k x, length f = length cols ->
  Forall2 (fun cv v => P (fst cv) (snd cv) v) (combine cols f) out -> value_of cols f k = Some x ->
  exists v, value_of cols out k = Some v /\ P k x v.
Proof.
  induction cols as [|c cols IH]; intros f out k x Hl HF Hv; [discriminate|]. destruct f as [|y f]; [discriminate|]. cbn [combine] in HF.
  inversion HF as [|? v ? out' Hp HF']; subst. cbn [fst snd] in Hp. unfold value_of in *. cbn [combine dget] in *. destruct (eq_dec k c) as [->|Hne].
  - injection Hv as ->. eauto.
  - cbn in Hl. apply (IH f out' k x); [lia|exact HF'|exact Hv].
Qed.
Lemma value_kept comp : forall cols f k, length f = length cols -> comp k = false ->
  value_of (filter (fun c => negb (comp c)) cols) (kept comp cols f) k = value_of cols f k.
Proof.
  unfold value_of, kept. induction cols as [|c cols IH]; intros f k Hl Hk; [reflexivity|]. destruct f as [|y f]; [discriminate|]. cbn [combine filter fst].
  cbn in Hl. destruct (comp c) eqn:Ec; cbn [negb map snd combine dget].
  - rewrite IH by (lia || exact Hk). destruct (eq_dec k c) as [->|Hne]; [congruence|reflexivity].
  - destruct (eq_dec k c) as [->|Hne]; [reflexivity|]. apply IH; [lia|exact Hk].
Qed.
Lemma value_map_rget (r : row) cols k : In k cols -> value_of cols (map (rget r) cols) k = Some (rget r k).
Proof.
  unfold value_of. induction cols as [|c cols IH]; intros Hin; [destruct Hin|]. cbn [map combine dget]. destruct (eq_dec k c) as [->|Hne]; [reflexivity|].
  destruct Hin as [->|Hin]; [congruence|exact (IH Hin)].
Qed.
Lemma rget_dict_of cols out k v : NoDup cols -> length out = length cols -> value_of cols out k = Some v -> rget (dict_of (combine cols out)) k = v.
Proof.
  intros Hnd Hl Hv. rewrite dict_of_nodup; [|rewrite combine_fst by exact Hl; exact Hnd]. unfold rget, dget_or. unfold value_of in Hv. now rewrite Hv.
Qed.
Lemma each_copy_map {A B} (f : A -> B) m l : each_copy m (map f l) = map (fun x => (f (fst x), snd x)) (each_copy m l).
Proof.
  unfold each_copy. induction l as [|a l IH]; [reflexivity|]. cbn [map flat_map]. rewrite map_app, IH. f_equal. rewrite map_map. reflexivity.
Qed.
Lemma each_copy_In {A} m (l : list A) a i : In (a, i) (each_copy m l) <-> In a l /\ (0 <= i < m)%Z.
Proof.
  unfold each_copy. rewrite in_flat_map. split.
  - intros (x & Hx & Hin). apply in_map_iff in Hin. destruct Hin as (j & E & Hj). injection E as -> <-. apply in_seq in Hj. split; [exact Hx|lia].
  - intros [Ha Hi]. exists a. split; [exact Ha|]. apply in_map_iff. exists (Z.to_nat i). split; [f_equal; lia|]. apply in_seq. lia.
Qed.

Section Column.
Context {G : Type}.
Variable E : env G.
Variable cfg : sampler_config.
Variable p : plan.
Variables (ms : meta) (compact : dict tname (list string)) (st : tstate) (mults : dict string (list string)).
Variables (c : db_config) (offs : dict tname (dict string Z)).

Lemma result_fun t co co' : result_of E cfg p ms compact st t co -> result_of E cfg p ms compact st t co' -> co = co'.
Proof. unfold result_of. intros A B. rewrite A in B. injection B as ->. reflexivity. Qed.

Lemma copies_Forall2 (filt : list value -> G -> res filter_exn (list value * G)) copy l g outs g' : copies filt copy l g outs g' ->
  Forall2 (fun ri out => exists g0 f g1, filt (fst ri) g0 = Ok (f, g1) /\ copy (snd ri) f out) l outs.
Proof. induction 1; constructor; eauto 8. Qed.

Theorem transfer_column whole t g n' rows g' co k : transfer E cfg p ms compact st mults c offs whole t g n' rows g' ->
  result_of E cfg p ms compact st t co -> NoDup (co_cols co) -> In k (co_cols co) -> (forall f, In f (filters_of cfg t) -> ~ may_change f k) ->
  en_computed E n' k = false ->
  exists l1 l2, each_copy (times cfg mults t) (co_rows co) = l1 ++ l2 /\ (whole = true -> l2 = []) /\
    Forall2 (fun ri row => copy_value (mult_cols mults t) (dget_or offs n' []) (times cfg mults t) (snd ri) k (rget (fst ri) k) = Some (rget row k)) l1 rows.
Proof.
  intros (co' & chain & cols & l1 & l2 & outs & Hr & Hch & _ & Hec & Hwh & Hco & ->) Hr' Hnd Hk Hf Hc. rewrite (result_fun Hr Hr') in *. clear Hr Hr' co'.
  unfold result_rows in Hec. rewrite each_copy_map in Hec. apply map_eq_app in Hec. destruct Hec as (k1 & k2 & Hec & E1 & E2). exists k1, k2. split; [exact Hec|].
  split; [intros Hw; specialize (Hwh Hw); subst l2; destruct k2; [reflexivity|discriminate]|].
  apply copies_Forall2 in Hco. subst l1. clear E2 Hwh Hec l2 k2. revert outs Hco. induction k1 as [|[r i] k1 IH]; intros outs Hco; cbn [map fst snd] in *; inversion Hco as [|? out ? outs' Hx HF]; subst; [constructor|].
  cbn [map]. constructor; [|exact (IH _ HF)]. clear IH HF. cbn [fst snd] in *. destruct Hx as (g0 & f & g1 & Hfi & Hl & Hcp).
  unfold filter_kept in Hfi. apply bind_Ok in Hfi. destruct Hfi as ([f0 g2] & Hrun & Hfi). injection Hfi as <- <-.
  assert (Hlen : length (map (rget r) (co_cols co)) = length (co_cols co)) by apply map_length.
  destruct (chain_untouched Hnd Hch Hlen Hrun Hf) as [Hval Hin]. rewrite (value_map_rget r Hk) in Hval.
  assert (Hl0 : length f0 = length cols) by exact (chain_length Hch Hlen Hrun).
  assert (Hnd2 : NoDup cols) by exact (chain_NoDup Hch Hnd).
  rewrite <- (@value_kept (en_computed E n') cols f0 k Hl0 Hc) in Hval.
  assert (Hlo := Forall2_len Hcp). rewrite combine_length, Hl, Nat.min_id in Hlo.
  destruct (@Forall2_value (fun k0 x v => copy_value (mult_cols mults t) (dget_or offs n' []) (times cfg mults t) i k0 x = Some v) _ _ _ _ _ Hl Hcp Hval) as (v & Hv & Hcv). cbn beta in Hcv. rewrite Hcv. f_equal. symmetry. apply rget_dict_of; [apply NoDup_filter; exact Hnd2|now symmetry|exact Hv].
Qed.
End Column.
