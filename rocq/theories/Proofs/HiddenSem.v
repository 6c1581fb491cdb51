(** What plan statements select from two sources that differ in hidden columns only. *)
From Coq Require Import Lia.
From Verif Require Import Model.Base Model.Value Model.PlanModel Model.Filters Model.Dest Model.Output Model.Sampler.
From Verif Require Import Spec.SchemaSpec Spec.SqlSem Spec.PlannerSpec Spec.SampleSpec Spec.HiddenSpec Proofs.BaseFacts Proofs.BuildFacts Proofs.FilterFacts.
Set Implicit Arguments.
Unset Strict Implicit.
Open Scope list_scope.

Section Lists.
Context {A B : Type}.
Lemma Forall2_impl' (P Q : A -> B -> Prop) l l' : (forall a b, P a b -> Q a b) -> Forall2 P l l' -> Forall2 Q l l'.
Proof. intros H. induction 1; constructor; auto. Qed.
Lemma Forall2_eq_map {C} (f : A -> C) (f' : B -> C) l l' : Forall2 (fun a b => f a = f' b) l l' -> map f l = map f' l'.
Proof. induction 1; [reflexivity|]. cbn. congruence. Qed.
Lemma Forall2_map2 {C D} (P : C -> D -> Prop) (f : A -> C) (f' : B -> D) l l' :
  Forall2 (fun a b => P (f a) (f' b)) l l' -> Forall2 P (map f l) (map f' l').
Proof. induction 1; constructor; auto. Qed.
Lemma Forall2_filter (P : A -> B -> Prop) (k : A -> bool) (k' : B -> bool) l l' :
  (forall a b, P a b -> k a = k' b) -> Forall2 P l l' -> Forall2 P (filter k l) (filter k' l').
Proof.
  intros H. induction 1 as [|a b l l' Hab _ IH]; [constructor|]. cbn [filter]. rewrite (H _ _ Hab). destruct (k' b); [constructor; assumption|assumption].
Qed.
Lemma Forall2_firstn (P : A -> B -> Prop) n : forall l l', Forall2 P l l' -> Forall2 P (firstn n l) (firstn n l').
Proof. induction n as [|n IH]; intros l l' H; [constructor|]. destruct H; cbn [firstn]; constructor; auto. Qed.
Lemma Forall2_existsb (P : A -> B -> Prop) (k : A -> bool) (k' : B -> bool) l l' :
  (forall a b, P a b -> k a = k' b) -> Forall2 P l l' -> existsb k l = existsb k' l'.
Proof. intros H. induction 1 as [|a b l l' Hab _ IH]; [reflexivity|]. cbn [existsb]. rewrite (H _ _ Hab), IH. reflexivity. Qed.
Lemma Forall2_flat_map {C D} (P : A -> B -> Prop) (Q : C -> D -> Prop) (f : A -> list C) (f' : B -> list D) l l' :
  (forall a b, P a b -> Forall2 Q (f a) (f' b)) -> Forall2 P l l' -> Forall2 Q (flat_map f l) (flat_map f' l').
Proof. intros H. induction 1 as [|a b l l' Hab _ IH]; [constructor|]. cbn [flat_map]. apply Forall2_app; auto. Qed.
Lemma Forall2_combine_same {C} (P : A -> B -> Prop) : forall l l' (cs : list C), Forall2 P l l' ->
  Forall2 (fun x x' => fst x = fst x' /\ P (snd x) (snd x')) (combine cs l) (combine cs l').
Proof. intros l l' cs H. revert cs. induction H as [|a b l l' Hab _ IH]; intros [|c cs]; cbn [combine]; constructor; auto. Qed.
End Lists.

Lemma nodup_Forall2 {A B} (da : forall x y : A, {x = y} + {x <> y}) (db : forall x y : B, {x = y} + {x <> y}) (P : A -> B -> Prop) l l' :
  Forall2 P l l' -> (forall a a' b b', In a l -> In a' l -> In b l' -> In b' l' -> P a b -> P a' b' -> (a = a' <-> b = b')) ->
  Forall2 P (nodup da l) (nodup db l').
Proof.
  induction 1 as [|a b l l' Hab H IH]; intros He; [constructor|]. cbn [nodup].
  assert (Hi : In a l <-> In b l').
  { split; intros Hx.
    - destruct (Forall2_In_l H Hx) as (b0 & Hb0 & P0). rewrite (proj1 (He a a b b0 (or_introl eq_refl) (or_introl eq_refl) (or_introl eq_refl) (or_intror Hb0) Hab P0) eq_refl). exact Hb0.
    - destruct (Forall2_In_r H Hx) as (a0 & Ha0 & P0). rewrite (proj2 (He a a0 b b (or_introl eq_refl) (or_intror Ha0) (or_introl eq_refl) (or_introl eq_refl) Hab P0) eq_refl). exact Ha0. }
  assert (IH' : Forall2 P (nodup da l) (nodup db l')).
  { apply IH. intros x x' y y' H1 H2 H3 H4. apply He; right; assumption. }
  destruct (in_dec da a l), (in_dec db b l'); [exact IH'|tauto|tauto|]. constructor; assumption.
Qed.

Section Sem.
Variable hidden : tname -> string -> Prop.
Notation alike := (alike hidden).
Notation seen := (seen hidden).

Lemma alike_refl n r : alike n r r.
Proof. induction r; constructor; auto. Qed.
Lemma alike_sym n r r' : alike n r r' -> alike n r' r.
Proof.
  induction 1 as [|x x' r r' [E H] _ IH]; constructor; auto. split; [auto|]. destruct H as [H|H]; [auto|]. right. rewrite <- E. exact H.
Qed.
Lemma alike_trans n r r' r'' : alike n r r' -> alike n r' r'' -> alike n r r''.
Proof.
  intros H. revert r''. induction H as [|x x' r r' [E H] _ IH]; intros r'' H2; inversion H2 as [|y y' t t' [E2 H3] H4]; subst; constructor; [|apply IH; assumption].
  split; [congruence|]. destruct H as [H|H]; [|auto]. destruct H3 as [H3|H3]; [left; congruence|right; rewrite E; exact H3].
Qed.
Lemma alike_get n r r' c : alike n r r' -> rget r c = rget r' c \/ hidden n c.
Proof.
  intros H. unfold rget, dget_or. induction H as [|[k v] [k' v'] r r' [E H] _ IH]; [left; reflexivity|]. cbn [fst snd] in *. subst k'. cbn [dget].
  destruct (eq_dec c k) as [->|]; [|exact IH]. destruct H as [->|H]; auto.
Qed.
Lemma alike_seen n r r' c : alike n r r' -> ~ hidden n c -> rget r c = rget r' c.
Proof. intros H Hc. destruct (alike_get c H); [assumption|contradiction]. Qed.
Lemma alike_map n r r' cs : alike n r r' -> seen n cs -> map (rget r) cs = map (rget r') cs.
Proof. intros H Hs. apply map_ext_in. intros c Hc. apply (alike_seen H). exact (Hs c Hc). Qed.
Lemma alike_none n r r' : alike n r r' -> (forall c, ~ hidden n c) -> r = r'.
Proof.
  intros H Hn. induction H as [|[k v] [k' v'] r r' [E H] _ IH]; [reflexivity|]. cbn [fst snd] in *. subst k' r'. destruct H as [->|H]; [reflexivity|].
  destruct (Hn _ H).
Qed.

Variables (e e' : sqlenv) (z : rnd).
Hypothesis Hcmp : cmp e = cmp e'.
Hypothesis Htext : text e = text e'.
Hypothesis Hrows : forall id, Forall2 (alike (i_name id)) (contents e id) (contents e' id).
Hypothesis Hz : oblivious hidden z.
Notation wc_blind := (wc_blind hidden (text e)).
Notation sel_blind := (sel_blind hidden (text e)).
Notation stmt_blind := (stmt_blind hidden (text e)).

Lemma h_cmp3 op a b : cmp3 e op a b = cmp3 e' op a b.
Proof. unfold cmp3. rewrite Hcmp. reflexivity. Qed.
Lemma h_op3 op a b : op3 e op a b = op3 e' op a b.
Proof. unfold op3. destruct op; rewrite !h_cmp3; reflexivity. Qed.
Lemma h_in3 xs l : in3 e xs l = in3 e' xs l.
Proof. unfold in3. f_equal. apply map_ext. intros ys. unfold tuple_eq3. f_equal. apply map_ext. intros [a b]. apply h_cmp3. Qed.

Lemma h_join n r r' j : alike n r r' -> join_blind hidden n j -> join_holds e r j = join_holds e' r' j.
Proof.
  intros Hr [H1 H2]. unfold join_holds. apply (Forall2_existsb (P := alike (i_name (j_right j)))); [|apply Hrows]. intros s s' Hs. unfold join_match.
  assert (Hin : forall x, In x (combine (j_left_cols j) (j_right_cols j)) -> ~ hidden n (fst x) /\ ~ hidden (i_name (j_right j)) (snd x)).
  { intros [a b] Hx. split; [exact (H1 _ (in_combine_l _ _ _ _ Hx))|exact (H2 _ (in_combine_r _ _ _ _ Hx))]. }
  revert Hin. induction (combine (j_left_cols j) (j_right_cols j)) as [|x l IH]; intros Hin; [reflexivity|]. cbn [forallb].
  destruct (Hin x (or_introl eq_refl)) as [Ha Hb]. rewrite IH by (intros y Hy; apply Hin; right; exact Hy).
  rewrite h_cmp3, (alike_seen Hr Ha), (alike_seen Hs Hb). reflexivity.
Qed.
Lemma h_joins n r r' js o : alike n r r' -> match js with Some l => Forall (join_blind hidden n) l | None => True end ->
  joins_hold e js o r = joins_hold e' js o r'.
Proof.
  intros Hr Hj. destruct js as [js|]; [|reflexivity]. unfold joins_hold. destruct js as [|j0 js]; [reflexivity|]. destruct o.
  - induction Hj as [|j l Hj _ IH]; [reflexivity|]. cbn [existsb]. rewrite (h_join Hr Hj), IH. reflexivity.
  - induction Hj as [|j l Hj _ IH]; [reflexivity|]. cbn [forallb]. rewrite (h_join Hr Hj), IH. reflexivity.
Qed.

Definition Pw (c : wc) : Prop := forall n, wc_blind n c -> forall i r r', alike n r r' -> eval_wc e z i r c = eval_wc e' z i r' c.
(** the selected rows, before the columns are chosen *)
Definition chosen (x : sel) (l l' : list row) : Prop :=
  sem_sel e z x = map (project (s_columns x)) l /\ sem_sel e' z x = map (project (s_columns x)) l' /\ Forall2 (alike (i_name (s_from x))) l l'.
Definition Ps (x : sel) : Prop := sel_blind x -> exists l l', chosen x l l'.
Definition Pt (st : stmt) : Prop := stmt_blind st -> sem_stmt e z st = sem_stmt e' z st.

Lemma h_wcs l n : Forall Pw l -> fold_right and True (map (wc_blind n) l) -> forall i r r', alike n r r' -> map (eval_wc e z i r) l = map (eval_wc e' z i r') l.
Proof.
  induction l as [|c l IH]; intros HP Hb i r r' Hr; [reflexivity|]. apply Forall_cons_iff in HP. destruct HP as [P1 P2]. cbn [map fold_right] in *.
  destruct Hb as [B1 B2]. rewrite (P1 n B1 i r r' Hr), (IH P2 B2 i r r' Hr). reflexivity.
Qed.

Lemma h_indexed n l l' : Forall2 (alike n) l l' -> Forall2 (numbered_alike hidden n) (indexed l) (indexed l').
Proof. intros H. unfold indexed. rewrite (Forall2_len H). apply Forall2_combine_same. exact H. Qed.

Lemma shown x l l' : shows hidden x -> chosen x l l' -> sem_sel e z x = sem_sel e' z x.
Proof.
  intros Hs (-> & -> & H). apply Forall2_eq_map. revert H. apply Forall2_impl'. intros r r' Hr. unfold shows in Hs. unfold project.
  destruct (s_columns x) as [[|c cs]|]; [exact (alike_none Hr Hs)| |exact (alike_none Hr Hs)].
  apply map_ext_in. intros c0 Hc0. f_equal. apply (alike_seen Hr). exact (Hs c0 Hc0).
Qed.

Lemma h_all : (forall x, Ps x) /\ (forall st, Pt st).
Proof.
  assert (H1 : Pw WFalse) by (intros n _ i r r' _; reflexivity).
  assert (H2 : Pw WTrue) by (intros n _ i r r' _; reflexivity).
  assert (H3 : forall op c v, Pw (WOp op c v)).
  { intros op c v n Hb i r r' Hr. cbn [eval_wc]. rewrite h_op3, (alike_seen Hr Hb). reflexivity. }
  assert (H4 : forall cs vs neg, Pw (WInVals cs vs neg)).
  { intros cs vs neg n Hb i r r' Hr. cbn [eval_wc]. rewrite h_in3, (alike_map Hr Hb). reflexivity. }
  assert (H5 : forall cs s neg, Pt s -> Pw (WInStmt cs s neg)).
  { intros cs s neg IH n Hb i r r' Hr. change (seen n cs /\ stmt_blind s) in Hb. destruct Hb as [B1 B2].
    change ((let t := in3 e (map (rget r) cs) (map dvals (sem_stmt e z s)) in if neg then not3 t else t) =
            (let t := in3 e' (map (rget r') cs) (map dvals (sem_stmt e' z s)) in if neg then not3 t else t)).
    rewrite (IH B2), h_in3, (alike_map Hr B1). reflexivity. }
  assert (H6 : forall l, Forall Pw l -> Pw (WAnd l)).
  { intros l IH n Hb i r r' Hr. change (fold_right and3 T3 (map (eval_wc e z i r) l) = fold_right and3 T3 (map (eval_wc e' z i r') l)). rewrite (h_wcs IH Hb i Hr). reflexivity. }
  assert (H7 : forall l, Forall Pw l -> Pw (WOr l)).
  { intros l IH n Hb i r r' Hr. change (fold_right or3 F3 (map (eval_wc e z i r) l) = fold_right or3 F3 (map (eval_wc e' z i r') l)). rewrite (h_wcs IH Hb i Hr). reflexivity. }
  assert (H8 : forall q, Pw (WRandom q)).
  { intros q n _ i r r' Hr. cbn [eval_wc]. rewrite (proj1 Hz n q i r r' Hr). reflexivity. }
  assert (H9 : forall s ps, Pw (WSQL s ps)).
  { intros s ps n Hb i r r' Hr. cbn [eval_wc]. rewrite <- Htext. exact (Hb r r' Hr). }
  assert (HSel : forall cs f w lim js o, opt_P Pw w -> Ps (Sel cs f w lim js o)).
  { intros cs f w lim js o Hw Hb.
    change (match js with Some l => Forall (join_blind hidden (i_name f)) l | None => True end /\ match w with Some w => wc_blind (i_name f) w | None => True end) in Hb.
    destruct Hb as [B1 B2].
    set (keep := fun (e : sqlenv) (ir : nat * row) => joins_hold e js o (snd ir) && match w with None => true | Some w => is_true (eval_wc e z (fst ir) (snd ir) w) end).
    exists (map snd (limited z lim (filter (keep e) (indexed (contents e f))))), (map snd (limited z lim (filter (keep e') (indexed (contents e' f))))).
    assert (HF : Forall2 (numbered_alike hidden (i_name f)) (filter (keep e) (indexed (contents e f))) (filter (keep e') (indexed (contents e' f)))).
    { apply Forall2_filter; [|apply h_indexed, Hrows]. intros [i r] [i' r'] [Ei Hr]. cbn [fst snd] in *. subst i'. unfold keep. cbn [fst snd].
      rewrite (h_joins o Hr B1). f_equal. destruct w as [w|]; [|reflexivity]. rewrite (Hw _ B2 i r r' Hr). reflexivity. }
    unfold chosen. cbn [s_columns s_from]. split; [|split].
    - rewrite map_map. reflexivity.
    - rewrite map_map. reflexivity.
    - apply Forall2_map2. destruct lim as [k|]; cbn [limited].
      + apply Forall2_firstn. refine (Forall2_impl' _ (proj2 Hz _ _ _ HF)). intros x x' [_ Hx]. exact Hx.
      + refine (Forall2_impl' _ HF). intros x x' [_ Hx]. exact Hx. }
  assert (HSS : forall x, Ps x -> Pt (SSelect x)).
  { intros x Hx [B1 B2]. destruct (Hx B1) as (l & l' & Hc). exact (shown B2 Hc). }
  assert (HSU : forall l, Forall Ps l -> Pt (SUnion l)).
  { intros l IH Hb. change (fold_right and True (map (fun x => sel_blind x /\ shows hidden x) l)) in Hb.
    change (distinct (concat (map (sem_sel e z) l)) = distinct (concat (map (sem_sel e' z) l))). f_equal. f_equal.
    induction IH as [|x l Hx _ IHl]; [reflexivity|]. cbn [map fold_right] in *. destruct Hb as [[B1 B2] B3]. destruct (Hx B1) as (k & k' & Hc).
    rewrite (shown B2 Hc), IHl by exact B3. reflexivity. }
  split; [exact (sel_i H1 H2 H3 H4 H5 H6 H7 H8 H9 HSel HSS HSU)|exact (stmt_i H1 H2 H3 H4 H5 H6 H7 H8 H9 HSel HSS HSU)].
Qed.

(** The query of a table. *)
Lemma rows_from x : rnd_ok z -> s_columns x = None -> incl (sem_sel e z x) (contents e (s_from x)) /\ incl (sem_sel e' z x) (contents e' (s_from x)).
Proof.
  intros [_ Hp] Hc. destruct x as [cs f w lim js o]. cbn [s_columns s_from] in *. subst cs.
  assert (Hg : forall e0, incl (sem_sel e0 z (Sel None f w lim js o)) (contents e0 f)).
  { intros e0 r Hr. cbn [sem_sel] in Hr. apply in_map_iff in Hr. destruct Hr as ([i r'] & <- & Hr). cbn [snd project].
    assert (Hi : In (i, r') (indexed (contents e0 f))).
    { destruct lim as [k|]; cbn [limited] in Hr.
      - assert (Hf : forall (k : nat) (l : list (nat * row)) x, In x (firstn k l) -> In x l).
        { intros k0. induction k0 as [|k0 IHk]; intros [|y l] x Hx; cbn [firstn] in Hx; try destruct Hx; [left; assumption|right; auto]. }
        apply Hf in Hr. apply (Permutation_in _ (Hp _)) in Hr. apply filter_In in Hr. exact (proj1 Hr).
      - apply filter_In in Hr. exact (proj1 Hr). }
    unfold indexed in Hi. exact (in_combine_r _ _ _ _ Hi). }
  split; apply Hg.
Qed.

Theorem own_rows n q st : rnd_ok z -> q_stmt q = Some st -> reads_only n st -> query_blind hidden (text e) q ->
  (forall r r', In r (contents e (mkIdent (fst n) (snd n) false)) -> In r' (contents e (mkIdent (fst n) (snd n) false)) -> alike n r r' -> r = r') ->
  (forall r r', In r (contents e' (mkIdent (fst n) (snd n) false)) -> In r' (contents e' (mkIdent (fst n) (snd n) false)) -> alike n r r' -> r = r') ->
  Forall2 (alike n) (sem_stmt e z st) (sem_stmt e' z st).
Proof.
  intros Hzo Hq Hr Hb U U'. specialize (Hb st Hq). destruct h_all as [HS _].
  assert (Hn : i_name (mkIdent (fst n) (snd n) false) = n) by (destruct n; reflexivity).
  assert (Hone : forall x, s_from x = mkIdent (fst n) (snd n) false /\ s_columns x = None -> sel_blind x -> Forall2 (alike n) (sem_sel e z x) (sem_sel e' z x)).
  { intros x [F C] Hx. destruct (HS x Hx) as (l & l' & E1 & E2 & Hc). rewrite F, Hn in Hc. rewrite C in E1, E2. rewrite E1, E2.
    assert (Hid : forall k, map (project None) k = k) by (intros k; apply map_id). rewrite !Hid. exact Hc. }
  destruct st as [x|l].
  - exact (Hone x Hr Hb).
  - change (Forall2 (alike n) (distinct (concat (map (sem_sel e z) l))) (distinct (concat (map (sem_sel e' z) l)))).
    assert (HF : Forall2 (alike n) (concat (map (sem_sel e z) l)) (concat (map (sem_sel e' z) l)) /\
       incl (concat (map (sem_sel e z) l)) (contents e (mkIdent (fst n) (snd n) false)) /\ incl (concat (map (sem_sel e' z) l)) (contents e' (mkIdent (fst n) (snd n) false))).
    { clear Hq. cbn [reads_only] in Hr. induction Hb as [|x l Hx _ IH]; [split; [constructor|split; intros y []]|]. cbn [map concat].
      destruct (IH (fun s Hs => Hr s (or_intror Hs))) as (A & B & C). pose proof (Hr x (or_introl eq_refl)) as Hrx. destruct (rows_from Hzo (proj2 Hrx)) as [I1 I2]. rewrite (proj1 Hrx) in I1, I2.
      split; [apply Forall2_app; [exact (Hone x Hrx Hx)|exact A]|]. split; apply incl_app; assumption. }
    destruct HF as (HF & I1 & I2). apply nodup_Forall2; [exact HF|]. intros a a' b b' Ha Ha' Hb1 Hb2 P1 P2. split; intros Heq; subst.
    + apply U'; [apply I2; assumption|apply I2; assumption|]. exact (alike_trans (alike_sym P1) P2).
    + apply U; [apply I1; assumption|apply I1; assumption|]. exact (alike_trans P1 (alike_sym P2)).
Qed.
End Sem.
