(** What a plan statement selects depends only on the tables it mentions (and on the random choices, if it
    makes any). *)
From Coq Require Import Lia.
From Verif Require Import Model.Base Model.Value Model.PlanModel Spec.SqlSem Spec.PlannerSpec Spec.SampleSpec Proofs.BaseFacts Proofs.BuildFacts.
Set Implicit Arguments.
Unset Strict Implicit.

Section Cong.
Variables (e e' : sqlenv) (z z' : rnd).
Hypothesis Hcmp : cmp e = cmp e'.
Hypothesis Htext : text e = text e'.

Lemma cmp3_cong op a b : cmp3 e op a b = cmp3 e' op a b.
Proof. unfold cmp3. rewrite Hcmp. reflexivity. Qed.
Lemma op3_cong op a b : op3 e op a b = op3 e' op a b.
Proof. unfold op3. destruct op; rewrite !cmp3_cong; reflexivity. Qed.
Lemma in3_cong xs l : in3 e xs l = in3 e' xs l.
Proof.
  unfold in3. f_equal. apply map_ext. intros ys. unfold tuple_eq3. f_equal. apply map_ext. intros [a b]. apply cmp3_cong.
Qed.
Lemma joins_cong js outer r : (forall id, In id (joins_ids js) -> contents e id = contents e' id) ->
  joins_hold e js outer r = joins_hold e' js outer r.
Proof.
  intros H. destruct js as [js|]; [|reflexivity]. cbn [joins_ids] in H.
  assert (Hj : forall j, In j js -> join_holds e r j = join_holds e' r j).
  { intros j Hj. unfold join_holds. rewrite H; [|apply in_map; exact Hj].
    generalize (contents e' (j_right j)). intros l. induction l as [|x l IH]; [reflexivity|]. cbn [existsb]. rewrite IH. f_equal.
    unfold join_match. generalize (combine (j_left_cols j) (j_right_cols j)). intros cs. induction cs as [|c cs IHc]; [reflexivity|]. cbn [forallb]. rewrite IHc, cmp3_cong. reflexivity. }
  unfold joins_hold. destruct js as [|j0 js]; [reflexivity|]. destruct outer.
  - clear H. induction (j0 :: js) as [|x l IH]; [reflexivity|]. cbn [existsb]. rewrite Hj, IH; [reflexivity| |left; reflexivity]. intros y Hy. apply Hj. right. exact Hy.
  - clear H. induction (j0 :: js) as [|x l IH]; [reflexivity|]. cbn [forallb]. rewrite Hj, IH; [reflexivity| |left; reflexivity]. intros y Hy. apply Hj. right. exact Hy.
Qed.

Definition agree (ids : list ident) : Prop := forall id, In id ids -> contents e id = contents e' id.
Lemma agree_app l l' : agree (l ++ l') -> agree l /\ agree l'.
Proof. intros H. split; intros id Hid; apply H, in_or_app; auto. Qed.

(** The position of a row only matters for random choices. *)
Definition Pw (c : wc) : Prop := agree (wc_ids c) -> forall i j r, (z = z' /\ i = j) \/ wc_random_free c -> eval_wc e z i r c = eval_wc e' z' j r c.
Definition Ps (x : sel) : Prop := agree (sel_ids x) -> z = z' \/ sel_random_free x -> sem_sel e z x = sem_sel e' z' x.
Definition Pt (st : stmt) : Prop := agree (stmt_ids st) -> z = z' \/ random_free st -> sem_stmt e z st = sem_stmt e' z' st.

Lemma wcs_cong l : Forall Pw l -> agree (concat (map wc_ids l)) -> forall i j r, (z = z' /\ i = j) \/ fold_right and True (map wc_random_free l) ->
  map (eval_wc e z i r) l = map (eval_wc e' z' j r) l.
Proof.
  induction l as [|c l IH]; intros HP Ha i j r Hr; [reflexivity|]. apply Forall_cons_iff in HP. destruct HP as [P1 P2].
  cbn [map concat fold_right] in *. destruct (agree_app Ha) as [A1 A2].
  rewrite (P1 A1 i j r); [|destruct Hr as [Hr|[Hr _]]; [left|right]; exact Hr].
  rewrite (IH P2 A2 i j r); [reflexivity|]. destruct Hr as [Hr|[_ Hr]]; [left|right]; exact Hr.
Qed.
Lemma sels_cong l : Forall Ps l -> agree (concat (map sel_ids l)) -> z = z' \/ fold_right and True (map sel_random_free l) ->
  map (sem_sel e z) l = map (sem_sel e' z') l.
Proof.
  induction l as [|c l IH]; intros HP Ha Hr; [reflexivity|]. apply Forall_cons_iff in HP. destruct HP as [P1 P2].
  cbn [map concat fold_right] in *. destruct (agree_app Ha) as [A1 A2].
  rewrite (P1 A1); [|destruct Hr as [Hr|[Hr _]]; [left|right]; exact Hr].
  rewrite (IH P2 A2); [reflexivity|]. destruct Hr as [Hr|[_ Hr]]; [left|right]; exact Hr.
Qed.

Lemma filter_indexed_cong (k k' : nat * row -> bool) l : (forall i r, k (i, r) = k' (i, r)) -> filter k (indexed l) = filter k' (indexed l).
Proof. intros H. apply filter_ext. intros [i r]. apply H. Qed.

Lemma sem_cong st : agree (stmt_ids st) -> z = z' \/ random_free st -> sem_stmt e z st = sem_stmt e' z' st.
Proof.
  apply (@stmt_i Pw Ps Pt).
  - intros _ i j r _. reflexivity.
  - intros _ i j r _. reflexivity.
  - intros op c v _ i j r _. cbn [eval_wc]. apply op3_cong.
  - intros cs vs neg _ i j r _. cbn [eval_wc]. rewrite in3_cong. reflexivity.
  - intros cs s neg IH Ha i j r Hr. change (agree (stmt_ids s)) in Ha.
    change ((let t := in3 e (map (rget r) cs) (map dvals (sem_stmt e z s)) in if neg then not3 t else t) = (let t := in3 e' (map (rget r) cs) (map dvals (sem_stmt e' z' s)) in if neg then not3 t else t)).
    rewrite (IH Ha); [rewrite in3_cong; reflexivity|]. destruct Hr as [[Hr _]|Hr]; [left|right]; exact Hr.
  - intros l HP Ha i j r Hr. change (fold_right and3 T3 (map (eval_wc e z i r) l) = fold_right and3 T3 (map (eval_wc e' z' j r) l)). rewrite (wcs_cong HP Ha r Hr). reflexivity.
  - intros l HP Ha i j r Hr. change (fold_right or3 F3 (map (eval_wc e z i r) l) = fold_right or3 F3 (map (eval_wc e' z' j r) l)). rewrite (wcs_cong HP Ha r Hr). reflexivity.
  - intros q _ i j r [[-> ->]|[]]. reflexivity.
  - intros s ps _ i j r _. cbn [eval_wc]. rewrite Htext. reflexivity.
  - intros cs from w lim js o IH Ha Hr.
    change (agree (from :: joins_ids js ++ match w with Some w => wc_ids w | None => [] end)) in Ha.
    change (from :: joins_ids js ++ match w with Some w => wc_ids w | None => [] end) with ([from] ++ (joins_ids js ++ match w with Some w => wc_ids w | None => [] end)) in Ha.
    destruct (agree_app Ha) as [A1 A2]. destruct (agree_app A2) as [A3 A4].
    change (z = z' \/ (lim = None /\ match w with Some w => wc_random_free w | None => True end)) in Hr.
    set (keep := fun (e : sqlenv) z (ir : nat * row) => joins_hold e js o (snd ir) && match w with None => true | Some w => is_true (eval_wc e z (fst ir) (snd ir) w) end).
    change (map (fun ir => project cs (snd ir)) (limited z lim (filter (keep e z) (indexed (contents e from)))) =
            map (fun ir => project cs (snd ir)) (limited z' lim (filter (keep e' z') (indexed (contents e' from))))).
    rewrite (A1 from (or_introl eq_refl)). rewrite (filter_indexed_cong (k' := keep e' z')).
    + destruct Hr as [->|[-> _]]; reflexivity.
    + intros i r. unfold keep. cbn [fst snd]. rewrite (joins_cong o r A3). f_equal. destruct w as [w|]; [|reflexivity].
      rewrite (IH A4 i i r); [reflexivity|]. destruct Hr as [->|[_ Hr]]; [left; auto|right; exact Hr].
  - intros x IH Ha Hr. exact (IH Ha Hr).
  - intros l HP Ha Hr. change (distinct (concat (map (sem_sel e z) l)) = distinct (concat (map (sem_sel e' z') l))). rewrite (sels_cong HP Ha Hr). reflexivity.
Qed.
End Cong.

Lemma query_result_cong cmpf textf rawf source sample sample' z z' q :
  (forall id, In id (query_ids q) -> i_sampled id = true -> sample (i_name id) = sample' (i_name id)) ->
  z = z' \/ (forall st, q_stmt q = Some st -> random_free st) ->
  query_result cmpf textf rawf source sample z q = query_result cmpf textf rawf source sample' z' q.
Proof.
  intros H Hr. unfold query_result. unfold query_ids in H. destruct (q_sql q); [reflexivity|]. destruct (q_stmt q) as [st|]; [|reflexivity].
  apply sem_cong; [reflexivity|reflexivity| |].
  - intros id Hid. cbn [plan_env contents]. destruct (i_sampled id) eqn:E; [exact (H id Hid E)|reflexivity].
  - destruct Hr as [Hr|Hr]; [left; exact Hr|right; apply Hr; reflexivity].
Qed.
