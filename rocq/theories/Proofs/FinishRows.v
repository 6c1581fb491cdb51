(** Rows that violate no unique key. *)
From Coq Require Import Lia.
From Verif Require Import Model.Base Model.Value Model.Names Model.PlanModel Model.SqlAlgebra Model.Metadata Model.Planner Model.Filters Model.Multiply Model.Materialize Model.Dest Model.Output Model.Sampler.
From Verif Require Import Spec.GraphSpec Spec.SchemaSpec Spec.SqlSem Spec.PlannerSpec Spec.FilterSpec Spec.OutputSpec Spec.RunSpec Spec.ConflictSpec Spec.SampleSpec Spec.WholeSpec Spec.CompactWholeSpec Spec.CopiesSpec Spec.FinishSpec.
From Verif Require Import Proofs.BaseFacts Proofs.NameFacts Proofs.MetadataFacts Proofs.FilterFacts Proofs.PlanRun Proofs.OutputRows Proofs.OutputRun Proofs.OutputColumn Proofs.OutputKeys Proofs.ConflictFacts Proofs.WholeRun Proofs.WholeCompact Proofs.Complete Proofs.CompleteRun.
From Verif Require Import Model.Dest.
Set Implicit Arguments. Unset Strict Implicit.
Open Scope list_scope.

(** ** Inserting *)
Definition separate (ks : list string) (l : list row) : Prop :=
  forall i j r r', nth_error l i = Some r -> nth_error l j = Some r' -> clash ks r r' = true -> i = j.

Lemma clash_true ks r r' : clash ks r r' = true <-> ks <> [] /\ forall k, In k ks -> rget r k <> VNull /\ rget r k = rget r' k.
Proof.
  unfold clash. rewrite !Bool.andb_true_iff, !Bool.negb_true_iff. split.
  - intros ((H1 & H2) & H3). split; [destruct ks; [discriminate|discriminate]|]. apply (proj1 (eqb_true _ _)) in H3. intros k Hk. split.
    + intros Hx. assert (F : existsb (fun c => eqb (rget r c) VNull) ks = true) by (apply existsb_exists; exists k; rewrite Hx, eqb_refl; auto). congruence.
    + clear -H3 Hk. induction ks as [|a ks IH]; [destruct Hk|]. cbn [map] in H3. injection H3 as H1 H2. destruct Hk as [<-|Hk]; [exact H1|exact (IH H2 Hk)].
  - intros (H1 & H2). split; [split|].
    + destruct ks; [congruence|reflexivity].
    + destruct (existsb _ ks) eqn:Hx; [|reflexivity]. apply existsb_exists in Hx. destruct Hx as (k & Hk & Hx). apply (proj1 (eqb_true _ _)) in Hx. elim (proj1 (H2 k Hk) Hx).
    + apply (proj2 (eqb_true _ _)). apply map_ext_in. intros k Hk. exact (proj2 (H2 k Hk)).
Qed.
Lemma clash_same ks r r' s s' : (forall k, In k ks -> rget s k = rget r k) -> (forall k, In k ks -> rget s' k = rget r' k) -> clash ks s s' = true -> clash ks r r' = true.
Proof.
  intros H1 H2 H. apply clash_true in H. destruct H as [Hn H]. apply clash_true. split; [exact Hn|]. intros k Hk. rewrite <- (H1 k Hk), <- (H2 k Hk). exact (H k Hk).
Qed.
Lemma made_get t r r' ks : made_of t r r' -> incl ks (dkeys r) -> incl ks (tb_cols t) -> forall k, In k ks -> rget r' k = rget r k.
Proof. intros [_ H] H1 H2 k Hk. apply H; [exact (H1 k Hk)|exact (H2 k Hk)]. Qed.
Lemma nth_mid {A} (pre : list A) r rs : nth_error (pre ++ r :: rs) (length pre) = Some r.
Proof. rewrite nth_error_app2 by lia. rewrite Nat.sub_diag. reflexivity. Qed.
Lemma Forall2_nth {A B} (P : A -> B -> Prop) : forall l l', Forall2 P l l' -> forall i b, nth_error l' i = Some b -> exists a, nth_error l i = Some a /\ P a b.
Proof. induction 1 as [|x y l l' Hxy _ IH]; intros [|i] b Hi; try discriminate; [injection Hi as <-; exists x; auto|exact (IH i b Hi)]. Qed.

Section Insert.
Variables (dflt : tname -> string -> list row -> row -> value) (t : table) (how : on_conflict) (start : list row).
Definition fine (ks : list string) (all : list row) : Prop :=
  incl ks (tb_cols t) /\ (forall r, In r all -> incl ks (dkeys r)) /\ separate ks all /\ forall r o, In r all -> In o start -> clash ks r o = false.
Lemma insert_free : forall rs pre l2, Forall2 (made_of t) pre l2 -> (forall ks, In ks (table_keys t) -> ks <> [] -> fine ks (pre ++ rs)) ->
  exists l3, insert_rows dflt t how (start ++ l2) rs = Some (start ++ l3) /\ Forall2 (made_of t) (pre ++ rs) l3.
Proof.
  induction rs as [|r rs IH]; intros pre l2 HF Hk; cbn [insert_rows].
  { exists l2. rewrite app_nil_r. split; [reflexivity|exact HF]. }
  pose proof (complete_made dflt t (start ++ l2) r) as Hm. set (r' := complete dflt t (start ++ l2) r) in *.
  assert (Hr : In r (pre ++ r :: rs)) by (apply in_or_app; right; left; reflexivity).
  assert (Hno : forall kk, incl kk (table_keys t) -> existsb (clashes kk r') (start ++ l2) = false).
  { intros kk Hkk. destruct (existsb _ _) eqn:Hx; [|reflexivity]. exfalso. apply existsb_exists in Hx. destruct Hx as (o & Ho & Hc). unfold clashes in Hc. apply existsb_exists in Hc. destruct Hc as (ks & Hks & Hc).
    assert (Hne : ks <> []) by exact (proj1 (proj1 (clash_true _ _ _) Hc)). destruct (Hk ks (Hkk _ Hks) Hne) as (F1 & F2 & F3 & F4). apply in_app_or in Ho. destruct Ho as [Ho|Ho].
    - assert (Hx := F4 r o Hr Ho). rewrite (clash_same (made_get Hm (F2 r Hr) F1) (fun k _ => eq_refl (rget o k)) Hc) in Hx. discriminate.
    - destruct (In_nth_error _ _ Ho) as (i & Hi). destruct (Forall2_nth HF Hi) as (s & Hs & Hmo).
      assert (Hsi : In s (pre ++ r :: rs)) by (apply in_or_app; left; exact (nth_error_In _ _ Hs)).
      assert (Hc' := clash_same (made_get Hm (F2 r Hr) F1) (made_get Hmo (F2 s Hsi) F1) Hc).
      assert (Hlt : i < length pre) by (apply nth_error_Some; congruence).
      assert (Hi' : nth_error (pre ++ r :: rs) i = Some s) by (rewrite nth_error_app1 by exact Hlt; exact Hs).
      assert (Heq := F3 _ _ _ _ (nth_mid pre r rs) Hi' Hc'). lia. }
  assert (Hins : insert_row t how (start ++ l2) r' = Some (start ++ (l2 ++ [r']))).
  { rewrite app_assoc. unfold insert_row. destruct how as [| |any cs].
    - rewrite (Hno _ (incl_refl _)). reflexivity.
    - rewrite (Hno _ (incl_refl _)). reflexivity.
    - rewrite (Hno (if any then table_keys t else [tb_pk t])).
      + rewrite (Hno _ (incl_refl _)). reflexivity.
      + destruct any; [apply incl_refl|]. intros x [<-|[]]. left. reflexivity. }
  rewrite Hins. assert (Heq : pre ++ r :: rs = (pre ++ [r]) ++ rs) by (rewrite <- app_assoc; reflexivity). rewrite Heq in *.
  apply IH; [|exact Hk]. apply Forall2_app; [exact HF|]. constructor; [exact Hm|constructor].
Qed.
End Insert.

(** ** Multiplying and shifting *)
Lemma each_copy_nth {A} m (l : list A) : forall i r a, nth_error (each_copy m l) i = Some (r, a) ->
  (0 <= a < m)%Z /\ exists q, nth_error l q = Some r /\ i = q * Z.to_nat m + Z.to_nat a.
Proof.
  unfold each_copy. induction l as [|x l IH]; intros i r a Hi; cbn [flat_map] in Hi; [destruct i; discriminate|].
  set (h := map (fun i => (x, Z.of_nat i)) (seq 0 (Z.to_nat m))) in *. assert (Hl : length h = Z.to_nat m) by (unfold h; rewrite map_length, seq_length; reflexivity).
  destruct (Nat.lt_ge_cases i (length h)) as [Hlt|Hge].
  - rewrite nth_error_app1 in Hi by exact Hlt. unfold h in Hi. rewrite nth_error_map in Hi. destruct (nth_error (seq 0 (Z.to_nat m)) i) as [j|] eqn:Ej; [|discriminate]. cbn in Hi. injection Hi as <- <-.
    rewrite Hl in Hlt. assert (j = i) by (apply nth_error_nth with (d := 0) in Ej; rewrite seq_nth in Ej by exact Hlt; lia). subst j. split; [lia|]. exists 0. split; [reflexivity|lia].
  - rewrite nth_error_app2 in Hi by exact Hge. destruct (IH _ _ _ Hi) as (Ha & q & Hq & Hi'). split; [exact Ha|]. exists (S q). split; [exact Hq|]. rewrite Hl in *. cbn [Nat.mul]. lia.
Qed.
Lemma mul_add_inj z z' m a b : (z * m + a = z' * m + b)%Z -> (0 <= a < m)%Z -> (0 <= b < m)%Z -> z = z' /\ a = b.
Proof. intros H Ha Hb. assert (z = z'); [|subst; lia]. destruct (Z.lt_trichotomy z z') as [Hl|[Hl|Hl]]; [|exact Hl|]; exfalso; [assert ((z + 1) * m <= z' * m)%Z by (apply Z.mul_le_mono_nonneg_r; lia)|assert ((z' + 1) * m <= z * m)%Z by (apply Z.mul_le_mono_nonneg_r; lia)]; lia. Qed.
Lemma copy_inj mult offs m a b k v v' x : copy_value mult offs m a k v = Some x -> copy_value mult offs m b k v' = Some x -> x <> VNull ->
  (In k mult \/ dget offs k <> None -> whole_number v /\ whole_number v') -> (0 <= a < m)%Z -> (0 <= b < m)%Z -> (a = b \/ In k mult) -> a = b /\ v = v' /\ v <> VNull.
Proof.
  unfold copy_value. intros H1 H2 Hx Hw Ha Hb Hab. destruct (in_dec string_dec k mult) as [Hk|Hk].
  - destruct (Hw (or_introl Hk)) as [[->|(z & ->)] [->|(z' & ->)]]; cbn [times_plus] in *; destruct (dget offs k) as [o|]; cbn [times_plus] in *; injection H1 as <-; try congruence; injection H2 as Heq;
      (destruct (@mul_add_inj z z' m a b) as [-> ->]; [lia|exact Ha|exact Hb|]); (split; [reflexivity|split; [reflexivity|discriminate]]).
  - destruct Hab as [->|F]; [|contradiction]. split; [reflexivity|]. destruct (dget offs k) as [o|].
    + assert (Hs : Some o <> None) by discriminate. destruct (Hw (or_intror Hs)) as [[->|(z & ->)] [->|(z' & ->)]]; cbn [times_plus] in *; injection H1 as <-; try congruence; injection H2 as Heq; assert (z = z') by lia; subst z'. split; [reflexivity|discriminate].
    + injection H1 as ->. injection H2 as ->. auto.
Qed.

Section Transfer.
Context {G : Type}.
Variables (E : env G) (cfg : sampler_config) (p : plan) (ms : meta) (compact : dict tname (list string)) (st : tstate) (mults : dict string (list string)).
Variables (c : db_config) (offs : dict tname (dict string Z)) (whole : bool) (t : string) (g : G) (n' : tname) (rows : list row) (g' : G) (co : copied).
Hypothesis Htr : transfer E cfg p ms compact st mults c offs whole t g n' rows g'.
Hypothesis Hres : result_of E cfg p ms compact st t co.
Hypothesis Hnd : NoDup (co_cols co).

Lemma transfer_columns (P : string -> Prop) : (forall k, P k -> In k (co_cols co) /\ untouched_column E cfg t n' k) ->
  Forall2 (fun ri row => forall k, P k -> copy_value (mult_cols mults t) (dget_or offs n' []) (times cfg mults t) (snd ri) k (rget (fst ri) k) = Some (rget row k))
    (firstn (length rows) (each_copy (times cfg mults t) (co_rows co))) rows.
Proof.
  intros HP.
  assert (Hlen : length rows <= length (each_copy (times cfg mults t) (co_rows co))).
  { destruct Htr as (co' & chain & cols & l1 & l2 & outs & Hr & _ & _ & Hec & _ & Hco & ->). rewrite (result_fun Hr Hres) in *. apply copies_Forall2 in Hco. apply Forall2_len in Hco.
    rewrite map_length, <- Hco. unfold result_rows in Hec. rewrite each_copy_map in Hec. apply (f_equal (@length _)) in Hec. rewrite map_length, app_length in Hec. lia. }
  apply Forall2_all; [rewrite firstn_length; lia|]. intros k Hk. destruct (HP k Hk) as [Hkc [Hf Hcm]].
  destruct (transfer_column Htr Hres Hnd Hkc Hf Hcm) as (l1 & l2 & Hec & _ & HF). assert (Hl := Forall2_len HF). rewrite Hec, <- Hl. rewrite firstn_app, Nat.sub_diag, firstn_all, firstn_O, app_nil_r. exact HF.
Qed.
Lemma transfer_keys k row : In k (co_cols co) -> untouched_column E cfg t n' k -> In row rows -> In k (dkeys row).
Proof.
  intros Hk [Hkf Hkc] Hrow. destruct Htr as (co' & chain & cols & l1 & l2 & outs & Hr & Hch & _ & Hec & _ & Hco & Erows). rewrite (result_fun Hr Hres) in *.
  rewrite Erows in Hrow. apply in_map_iff in Hrow. destruct Hrow as (o & <- & Ho). apply copies_Forall2 in Hco. destruct (Forall2_In_r Hco Ho) as (ri & Hri0 & g4 & f & g5 & Hf & Hlen & Hcp).
  unfold filter_kept in Hf. apply bind_Ok in Hf. destruct Hf as ([f0 g6] & Hrun & Hf). injection Hf as <- <-.
  assert (Hri : length (fst ri) = length (co_cols co)).
  { assert (Hx2 : In ri (each_copy (times cfg mults t) (result_rows co))) by (rewrite Hec; apply in_or_app; now left).
    destruct ri as [v i]. apply each_copy_In in Hx2. destruct Hx2 as [Hx2 _]. apply in_map_iff in Hx2. destruct Hx2 as (r0 & <- & _). apply map_length. }
  destruct (chain_untouched Hnd Hch Hri Hrun Hkf) as [_ Hio]. assert (Hlo := Forall2_len Hcp). rewrite combine_length, Hlen, Nat.min_id in Hlo.
  rewrite dict_of_nodup; [|rewrite combine_fst by (now symmetry); apply NoDup_filter; exact (chain_NoDup Hch Hnd)].
  unfold dkeys. rewrite combine_fst by (now symmetry). apply filter_In. split; [exact (Hio Hk)|]. now rewrite Hkc.
Qed.

Variable ks : list string.
Hypothesis Hks : forall k, In k ks -> In k (co_cols co) /\ untouched_column E cfg t n' k.
Hypothesis Hwhole : forall k r, In k ks -> In r (co_rows co) -> In k (mult_cols mults t) \/ dget (dget_or offs n' []) k <> None -> whole_number (rget r k).

Lemma transfer_nth i row : nth_error rows i = Some row -> exists r a q, nth_error (co_rows co) q = Some r /\ (0 <= a < times cfg mults t)%Z /\ i = q * Z.to_nat (times cfg mults t) + Z.to_nat a /\
  forall k, In k ks -> copy_value (mult_cols mults t) (dget_or offs n' []) (times cfg mults t) a k (rget r k) = Some (rget row k).
Proof.
  intros Hi. destruct (Forall2_nth (transfer_columns Hks) Hi) as ([r a] & Hn & Hv). cbn [fst snd] in Hv.
  assert (Hn' : nth_error (each_copy (times cfg mults t) (co_rows co)) i = Some (r, a)).
  { rewrite <- (firstn_skipn (length rows) (each_copy (times cfg mults t) (co_rows co))). rewrite nth_error_app1; [exact Hn|]. apply nth_error_Some. congruence. }
  destruct (each_copy_nth Hn') as (Ha & q & Hq & Hiq). exists r, a, q. auto.
Qed.
Lemma transfer_separate : (times cfg mults t = 1%Z \/ exists k, In k ks /\ In k (mult_cols mults t)) -> separate ks (co_rows co) -> separate ks rows.
Proof.
  intros Hm Hsep i j row row' Hi Hj Hc. destruct (transfer_nth Hi) as (r & a & q & Hq & Ha & Ei & Hv). destruct (transfer_nth Hj) as (r' & b & q' & Hq' & Hb & Ej & Hv').
  apply clash_true in Hc. destruct Hc as [Hne Hc].
  assert (Hone : forall k, In k ks -> (a = b \/ In k (mult_cols mults t)) -> a = b /\ rget r k = rget r' k /\ rget r k <> VNull).
  { intros k Hk Hab. destruct (Hc k Hk) as [Hnn Heq]. assert (H2 := Hv' k Hk). rewrite <- Heq in H2. refine (copy_inj (Hv k Hk) H2 Hnn _ Ha Hb Hab).
    intros Hw. split; [exact (Hwhole Hk (nth_error_In _ _ Hq) Hw)|exact (Hwhole Hk (nth_error_In _ _ Hq') Hw)]. }
  assert (Hab : a = b). { destruct Hm as [Hm|(k & Hk & Hkm)]; [rewrite Hm in Ha, Hb; lia|exact (proj1 (Hone k Hk (or_intror Hkm)))]. }
  assert (Hqq : q = q'). { apply (Hsep _ _ _ _ Hq Hq'). apply clash_true. split; [exact Hne|]. intros k Hk. destruct (Hone k Hk (or_introl Hab)) as (_ & A & B). auto. }
  subst. reflexivity.
Qed.
(** New values of a key that is shifted beyond those that exist. *)
Lemma transfer_above k z row : In k ks -> dget (dget_or offs n' []) k = Some z -> (forall r y, In r (co_rows co) -> rget r k = VInt y -> (0 <= y)%Z) -> In row rows ->
  rget row k = VNull \/ exists y, rget row k = VInt y /\ (z <= y)%Z.
Proof.
  intros Hk Hz Hpos Hrow. destruct (In_nth_error _ _ Hrow) as (i & Hi). destruct (transfer_nth Hi) as (r & a & q & Hq & Ha & _ & Hv). specialize (Hv k Hk). assert (Hr := nth_error_In _ _ Hq).
  assert (Hs : dget (dget_or offs n' []) k <> None) by (rewrite Hz; discriminate).
  unfold copy_value in Hv. rewrite Hz in Hv. destruct (Hwhole Hk Hr (or_intror Hs)) as [Hx|(y & Hx)]; rewrite Hx in Hv.
  - destruct (in_dec string_dec k (mult_cols mults t)); cbn in Hv; injection Hv as <-; now left.
  - specialize (Hpos r y Hr Hx). right. destruct (in_dec string_dec k (mult_cols mults t)); cbn [times_plus] in Hv; injection Hv as Hv; eexists; (split; [symmetry; exact Hv|]); [assert (0 <= y * times cfg mults t)%Z by (apply Z.mul_nonneg_nonneg; lia)|]; lia.
Qed.
End Transfer.
