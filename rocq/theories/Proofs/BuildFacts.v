(** plan_model.py [build]: the SQL sent returns the rows the statement means (C29). *)
From Verif Require Import Model.Base Model.Value Model.PlanModel Spec.SqlSem Model.SqlAlgebra Model.PlanBuild
  Proofs.BaseFacts Proofs.SimplifyFacts.
Set Implicit Arguments.
Unset Strict Implicit.

(** Mutual induction over the plan language. *)
Section Ind.
Variables (P : wc -> Prop) (Q : sel -> Prop) (R : stmt -> Prop).
Hypothesis HF : P WFalse.
Hypothesis HT : P WTrue.
Hypothesis HOp : forall op c v, P (WOp op c v).
Hypothesis HIV : forall cs vs n, P (WInVals cs vs n).
Hypothesis HIS : forall cs s n, R s -> P (WInStmt cs s n).
Hypothesis HA : forall l, Forall P l -> P (WAnd l).
Hypothesis HO : forall l, Forall P l -> P (WOr l).
Hypothesis HR : forall q, P (WRandom q).
Hypothesis HS : forall s ps, P (WSQL s ps).
Definition opt_P (w : option wc) : Prop := match w with Some w => P w | None => True end.
Hypothesis HSel : forall cs f w lim js o, opt_P w -> Q (Sel cs f w lim js o).
Hypothesis HSS : forall x, Q x -> R (SSelect x).
Hypothesis HSU : forall l, Forall Q l -> R (SUnion l).
Fixpoint wc_i (c : wc) : P c :=
  match c with
  | WFalse => HF
  | WTrue => HT
  | WOp op c v => HOp op c v
  | WInVals cs vs n => HIV cs vs n
  | WInStmt cs s n => HIS cs n (stmt_i s)
  | WAnd l => HA ((fix go l : Forall P l :=
                     match l with [] => Forall_nil _ | c :: l' => Forall_cons _ (wc_i c) (go l') end) l)
  | WOr l => HO ((fix go l : Forall P l :=
                     match l with [] => Forall_nil _ | c :: l' => Forall_cons _ (wc_i c) (go l') end) l)
  | WRandom q => HR q
  | WSQL s ps => HS s ps
  end
with sel_i (s : sel) : Q s :=
  match s with
  | Sel cs f w lim js o =>
      @HSel cs f w lim js o
        (match w as w0 return opt_P w0 with
         | Some w => wc_i w | None => I end)
  end
with stmt_i (s : stmt) : R s :=
  match s with
  | SSelect x => HSS (sel_i x)
  | SUnion l => HSU ((fix go l : Forall Q l :=
                        match l with [] => Forall_nil _ | c :: l' => Forall_cons _ (sel_i c) (go l') end) l)
  end.
End Ind.

Lemma has_cols_ok t cs u : has_cols t cs = Ok u -> incl cs (t_cols t).
Proof.
  induction cs as [|c cs IH]; cbn [has_cols]; intros Hx; [intros x []|].
  apply bind_Ok in Hx. destruct Hx as (v & Hv & Hx). unfold has_col in Hv.
  destruct (memb c (t_cols t)) eqn:Em; [|discriminate]. apply (proj1 (memb_true _ _)) in Em.
  intros x [<-|Hin]; [exact Em|apply IH; assumption].
Qed.

Section From.
Variable d : dbenv.

(** The FROM rows belonging to one base row. *)
Fixpoint gfrom (f : sqlfrom) (ir : nat * row) : list jrow :=
  match f with
  | FTable t => [(ir, [])]
  | FJoin l a t on outer =>
      flat_map (fun jr : jrow =>
        let ms := filter (on_holds d (snd (fst jr)) on) (db_rows d (t_ref t)) in
        if outer && is_nil ms then [(fst jr, (a, None) :: snd jr)]
        else map (fun r' => (fst jr, (a, Some r') :: snd jr)) ms)
      (gfrom l ir)
  end.
Fixpoint base_of (f : sqlfrom) : tobj := match f with FTable t => t | FJoin l _ _ _ _ => base_of l end.

Lemma flat_map_flat_map {A B C} (f : A -> list B) (g : B -> list C) l :
  flat_map g (flat_map f l) = flat_map (fun a => flat_map g (f a)) l.
Proof. induction l as [|a l IH]; [reflexivity|]. cbn [flat_map]. rewrite flat_map_app, IH. reflexivity. Qed.

Lemma eval_from_gfrom f : eval_from d f = flat_map (gfrom f) (indexed (db_rows d (t_ref (base_of f)))).
Proof.
  induction f as [t|l IH a t on outer]; cbn [eval_from gfrom base_of].
  - induction (indexed _) as [|x xs IHx]; [reflexivity|]. cbn [map flat_map app]. rewrite IHx. reflexivity.
  - rewrite IH, flat_map_flat_map. reflexivity.
Qed.

Lemma gfrom_fst f ir jr : In jr (gfrom f ir) -> fst jr = ir.
Proof.
  revert jr. induction f as [t|l IH a t on outer]; cbn [gfrom]; intros jr Hin.
  - destruct Hin as [<-|[]]. reflexivity.
  - apply in_flat_map in Hin. destruct Hin as (jr0 & H0 & Hin). rewrite <- (IH _ H0).
    destruct (outer && is_nil _).
    + destruct Hin as [<-|[]]. reflexivity.
    + apply in_map_iff in Hin. destruct Hin as (r' & <- & _). reflexivity.
Qed.

Lemma gfrom_join l a t on outer ir jr :
  In jr (gfrom (FJoin l a t on outer) ir) <->
  exists jr0, In jr0 (gfrom l ir) /\
    ((outer = true /\ existsb (on_holds d (snd ir) on) (db_rows d (t_ref t)) = false /\ jr = (fst jr0, (a, None) :: snd jr0)) \/
     (exists r', In r' (db_rows d (t_ref t)) /\ on_holds d (snd ir) on r' = true /\ jr = (fst jr0, (a, Some r') :: snd jr0))).
Proof.
  cbn [gfrom]. rewrite in_flat_map. 
  assert (Hnil : forall jr0 : jrow, fst jr0 = ir -> 
     is_nil (filter (on_holds d (snd (fst jr0)) on) (db_rows d (t_ref t))) = negb (existsb (on_holds d (snd ir) on) (db_rows d (t_ref t)))).
  { intros jr0 ->. induction (db_rows d (t_ref t)) as [|r' rs IH]; [reflexivity|]. cbn [filter existsb].
    destruct (on_holds d (snd ir) on r'); [reflexivity|]. exact IH. }
  split.
  - intros (jr0 & H0 & Hin). exists jr0. split; [exact H0|]. pose proof (gfrom_fst H0) as Hf.
    cbn zeta in Hin. rewrite (Hnil _ Hf) in Hin.
    destruct (outer && negb _) eqn:Eo.
    + left. apply andb_true_iff in Eo. destruct Eo as [Eo1 Eo2]. apply negb_true_iff in Eo2.
      destruct Hin as [<-|[]]. tauto.
    + right. apply in_map_iff in Hin. destruct Hin as (r' & <- & Hr). apply filter_In in Hr.
      rewrite Hf in Hr. exists r'. tauto.
  - intros (jr0 & H0 & Hin). exists jr0. split; [exact H0|]. pose proof (gfrom_fst H0) as Hf. cbn zeta.
    rewrite (Hnil _ Hf). destruct Hin as [(-> & He & ->)|(r' & Hr & Ho & ->)].
    + rewrite He. left. reflexivity.
    + assert (He : existsb (on_holds d (snd ir) on) (db_rows d (t_ref t)) = true).
      { apply existsb_exists. exists r'. tauto. }
      rewrite He. rewrite andb_false_r. apply in_map_iff. exists r'. split; [reflexivity|].
      apply filter_In. rewrite Hf. tauto.
Qed.

Lemma group_block key k seen block rest :
  (forall x, In x block -> key x = k) ->
  group_first key seen (block ++ rest) =
  match block with
  | [] => group_first key seen rest
  | x :: _ => if memb k seen then group_first key seen rest else x :: group_first key (k :: seen) rest
  end.
Proof.
  intros Hk. destruct block as [|x block]; [reflexivity|]. cbn [app group_first].
  rewrite (Hk x (or_introl eq_refl)).
  assert (Hdrop : forall sn b, (forall y, In y b -> key y = k) -> memb k sn = true ->
            group_first key sn (b ++ rest) = group_first key sn rest).
  { intros sn b. induction b as [|y b IH]; intros Hb Hm; [reflexivity|]. cbn [app group_first].
    rewrite (Hb y (or_introl eq_refl)), Hm. apply IH; [intros w Hw; apply Hb; right; exact Hw|exact Hm]. }
  destruct (memb k seen) eqn:Em.
  - apply Hdrop; [intros y Hy; apply Hk; right; exact Hy|exact Em].
  - f_equal. apply Hdrop; [intros y Hy; apply Hk; right; exact Hy|]. rewrite memb_cons, eqb_refl. reflexivity.
Qed.

Lemma group_flat (key : jrow -> list value) (g : nat * row -> list jrow) (kr : nat * row -> list value) p base :
  (forall ir jr, In jr (g ir) -> fst jr = ir /\ key jr = kr ir) ->
  NoDup (map kr base) ->
  map fst (group_first key [] (filter p (flat_map g base))) =
  filter (fun ir => existsb p (g ir)) base.
Proof.
  intros Hg. 
  assert (Hgen : forall base seen, NoDup (map kr base) -> (forall ir, In ir base -> ~ In (kr ir) seen) ->
    map fst (group_first key seen (filter p (flat_map g base))) = filter (fun ir => existsb p (g ir)) base).
  { clear base. induction base as [|ir base IH]; intros seen Hnd Hseen; [reflexivity|].
    cbn [flat_map]. rewrite filter_app. cbn [map] in Hnd. apply NoDup_cons_iff in Hnd. destruct Hnd as [Hni Hnd].
    rewrite (group_block (k := kr ir)).
    2:{ intros x Hx. apply filter_In in Hx. apply Hg. apply Hx. }
    cbn [filter].
    assert (Hex : existsb p (g ir) = negb (is_nil (filter p (g ir)))).
    { clear. induction (g ir) as [|y ys IHy]; [reflexivity|]. cbn [existsb filter]. destruct (p y); [reflexivity|exact IHy]. }
    rewrite Hex. destruct (filter p (g ir)) as [|x block] eqn:Ef; cbn [is_nil negb].
    - apply IH; [exact Hnd|]. intros ir' Hin. apply Hseen. right. exact Hin.
    - assert (Em : memb (kr ir) seen = false).
      { apply memb_false. apply Hseen. left. reflexivity. }
      rewrite Em. cbn [map]. f_equal.
      + apply (Hg ir). assert (Hx : In x (filter p (g ir))) by (rewrite Ef; left; reflexivity).
        apply filter_In in Hx. apply Hx.
      + apply IH; [exact Hnd|]. intros ir' Hin [Heq|Hs].
        * apply Hni. rewrite Heq. apply in_map. exact Hin.
        * apply (Hseen ir'); [right; exact Hin|exact Hs]. }
  intros Hnd. apply Hgen; [exact Hnd|]. intros ir _ [].
Qed.
End From.

Lemma indexed_snd l : map snd (indexed l) = l.
Proof.
  unfold indexed. generalize 0. induction l as [|r l IH]; intros n; [reflexivity|].
  cbn [length seq combine map snd]. rewrite IH. reflexivity.
Qed.

Section Build.
Context {S : Type}.
Variable context : ident -> S -> res build_exn (tobj * S).
Variable e : sqlenv.
Variable d : dbenv.
Variable z : rnd.
Hypothesis cmp_eq : db_cmp d = cmp e.
Hypothesis text_eq : db_text d = text e.
(** The context hands out tables with the right contents, whose primary keys are unique. *)
Hypothesis ctx_rows : forall id s t s', context id s = Ok (t, s') -> db_rows d (t_ref t) = contents e id.
Hypothesis ctx_pk : forall id s t s', context id s = Ok (t, s') -> t_pk t <> [] ->
  NoDup (map (fun r => map (rget r) (t_pk t)) (db_rows d (t_ref t))).

Lemma cmp3_env op a b : cmp3 (cmp_env d) op a b = cmp3 e op a b.
Proof. unfold cmp3, cmp_env. cbn [cmp]. rewrite cmp_eq. reflexivity. Qed.
Lemma in3_env xs l : in3 (cmp_env d) xs l = in3 e xs l.
Proof.
  unfold in3. f_equal. apply map_ext. intros ys. unfold tuple_eq3. f_equal. apply map_ext.
  intros [a b]. apply cmp3_env.
Qed.
Lemma on_holds_match r j r' : on_holds d r (combine (j_left_cols j) (j_right_cols j)) r' = join_match e r j r'.
Proof.
  unfold on_holds, join_match. induction (combine _ _) as [|x l IH]; [reflexivity|].
  cbn [forallb]. rewrite IH, cmp3_env. reflexivity.
Qed.

Lemma match_nonnull j r r' c :
  join_wf j -> join_match e r j r' = true -> In c (j_right_cols j) -> rget r' c <> VNull.
Proof.
  intros [_ Hlen] Hm Hc.
  assert (Hp : exists l, In (l, c) (combine (j_left_cols j) (j_right_cols j))).
  { revert Hlen Hc. clear Hm. generalize (j_left_cols j) (j_right_cols j).
    induction l as [|a l IH]; intros [|b l'] Hlen Hc; cbn in *; try discriminate; try contradiction.
    destruct Hc as [->|Hc]; [exists a; left; reflexivity|].
    destruct (IH l' ltac:(lia) Hc) as (x & Hx). exists x. right. exact Hx. }
  destruct Hp as (l & Hin). unfold join_match in Hm. rewrite forallb_forall in Hm. specialize (Hm _ Hin).
  cbn [fst snd] in Hm. intros Hn. rewrite Hn in Hm. unfold cmp3 in Hm. destruct (rget r l); discriminate.
Qed.

(** Invariant of the loop over the joins. *)
Definition exs_of (ir : nat * row) (exs : list sqlc) : list tv := map (eval_c d z (ir, [])) exs.
Definition only_exists (exs : list sqlc) : Prop := Forall (fun c => exists t on, c = QExists t on) exs.

Definition jinv (t : tobj) (outer : bool) (js : list join) (n : nat) (from : sqlfrom)
    (cols : list (nat * string)) (exs : list sqlc) : Prop :=
  base_of from = t /\ only_exists exs /\ (is_join from = true -> t_pk t <> []) /\
  (js = [] -> is_join from = false) /\
  (forall a c, In (a, c) cols -> a < n) /\
  (forall ir jr a o, In jr (gfrom d from ir) -> In (a, o) (snd jr) -> a < n) /\
  if outer then
    (js <> [] -> exs <> [] \/ cols <> []) /\
    forall ir, gfrom d from ir <> [] /\
      forall jr, In jr (gfrom d from ir) ->
        existsb (fun c => is_true (eval_c d z jr c)) exs ||
        existsb (fun nc => is_true (eval_c d z jr (QNotNull (fst nc) (snd nc)))) cols
        = existsb (join_holds e (snd ir)) js
  else
    forall ir, negb (is_nil (gfrom d from ir)) && forallb (fun c => is_true (eval_c d z (ir, []) c)) exs
               = forallb (join_holds e (snd ir)) js.

Lemma eval_exists jr t on : eval_c d z jr (QExists t on) = tv_of (existsb (on_holds d (snd (fst jr)) on) (db_rows d (t_ref t))).
Proof. destruct jr as [[i r] al]. reflexivity. Qed.

Lemma is_true_tv b : is_true (tv_of b) = b.
Proof. destruct b; reflexivity. Qed.

Lemma holds_exists id s t s' j r : context id s = Ok (t, s') -> j_right j = id ->
  existsb (on_holds d r (combine (j_left_cols j) (j_right_cols j))) (db_rows d (t_ref t)) = join_holds e r j.
Proof.
  intros Hc Hj. rewrite (ctx_rows Hc). unfold join_holds. rewrite Hj.
  induction (contents e id) as [|r' l IH]; [reflexivity|]. cbn [existsb]. rewrite IH, on_holds_match. reflexivity.
Qed.

Lemma is_nil_false {A} (l : list A) : is_nil l = false <-> exists x, In x l.
Proof.
  destruct l as [|x l]; cbn; split; try discriminate.
  - intros (x & []).
  - intros _. exists x. left. reflexivity.
  - reflexivity.
Qed.

Lemma build_joins_inv t outer js done n from cols exs s r s' :
  Forall join_wf js ->
  jinv t outer done n from cols exs ->
  build_joins context t outer js n from cols exs s = Ok (r, s') ->
  jinv t outer (done ++ js) (n + length js) (fst (fst r)) (snd (fst r)) (snd r).
Proof.
  revert done n from cols exs s. induction js as [|j js IH]; intros done n from cols exs s Hwf Hinv Hb.
  - cbn [build_joins] in Hb. inv Hb. cbn [fst snd length]. rewrite app_nil_r, Nat.add_0_r. exact Hinv.
  - cbn [build_joins] in Hb. apply bind_Ok in Hb. destruct Hb as ([rt s1] & Hctx & Hb).
    apply bind_Ok in Hb. destruct Hb as (on & Hon & Hb).
    assert (Eon : on = combine (j_left_cols j) (j_right_cols j)).
    { unfold join_on in Hon. apply bind_Ok in Hon. destruct Hon as (u & _ & Hon). apply bind_Ok in Hon.
      destruct Hon as (u' & _ & Hon). congruence. }
    apply Forall_cons_iff in Hwf. destruct Hwf as [Hj Hwf].
    replace (done ++ j :: js) with ((done ++ [j]) ++ js) by (rewrite <- app_assoc; reflexivity).
    replace (n + length (j :: js)) with ((1 + n) + length js) by (cbn [length]; lia).
    destruct Hinv as (Hbase & Hex & Hpk & Hj0 & Hcol & Hal & Hmain).
    destruct (j_half_unique j && negb (is_nil (t_pk t))) eqn:Eh.
    + apply bind_Ok in Hb. destruct Hb as (u & _ & Hb). revert Hb. apply IH; [exact Hwf|].
      apply andb_true_iff in Eh. destruct Eh as [_ Eh].
      split; [exact Hbase|]. split; [exact Hex|].
      split; [intros _ Hn; rewrite Hn in Eh; discriminate|].
      split; [intros Hn; destruct done; discriminate|].
      split. { intros a c Hin. apply in_app_iff in Hin. destruct Hin as [Hin|Hin].
               - specialize (Hcol _ _ Hin). lia.
               - apply in_map_iff in Hin. destruct Hin as (c' & Heq & _). inv Heq. lia. }
      split. { intros ir jr a o Hjr Hin. apply gfrom_join in Hjr. destruct Hjr as (jr0 & H0 & Hcase).
               assert (Hjr : exists o0, snd jr = (n, o0) :: snd jr0).
               { destruct Hcase as [(_ & _ & ->)|(r' & _ & _ & ->)]; eexists; reflexivity. }
               destruct Hjr as (o0 & Hs). rewrite Hs in Hin. destruct Hin as [Heq|Hin].
               - inv Heq. lia.
               - specialize (Hal ir jr0 a o H0 Hin). lia. }
      destruct outer.
      * destruct Hmain as [_ Hmain]. split.
        { intros _. right. intros Hn. apply app_eq_nil in Hn. destruct Hn as [_ Hn].
          destruct Hj as [Hne Hlen]. apply map_eq_nil in Hn. rewrite Hn in Hlen. destruct (j_left_cols j); [contradiction|discriminate]. }
        intros ir. destruct (Hmain ir) as [Hne Hval]. split.
        -- destruct (gfrom d from ir) as [|jr0 l] eqn:Eg; [contradiction|].
           intros Hn. 
           destruct (existsb (on_holds d (snd ir) on) (db_rows d (t_ref rt))) eqn:Ee.
           ++ apply existsb_exists in Ee. destruct Ee as (r' & Hr' & Ho).
              assert (Hin : In (fst jr0, (n, Some r') :: snd jr0) (gfrom d (FJoin from n rt on true) ir)).
              { apply gfrom_join. exists jr0. rewrite Eg. split; [left; reflexivity|]. right. exists r'. tauto. }
              rewrite Hn in Hin. destruct Hin.
           ++ assert (Hin : In (fst jr0, (n, None) :: snd jr0) (gfrom d (FJoin from n rt on true) ir)).
              { apply gfrom_join. exists jr0. rewrite Eg. split; [left; reflexivity|]. left. tauto. }
              rewrite Hn in Hin. destruct Hin.
        -- intros jr Hjr. apply gfrom_join in Hjr. destruct Hjr as (jr0 & H0 & Hcase).
           specialize (Hval jr0 H0). rewrite !existsb_app. cbn [existsb]. rewrite !orb_false_r, <- Hval.
           assert (Hfst : fst jr = fst jr0) by (destruct Hcase as [(_ & _ & ->)|(r' & _ & _ & ->)]; reflexivity).
           assert (Hsnd : exists o0, snd jr = (n, o0) :: snd jr0).
           { destruct Hcase as [(_ & _ & ->)|(r' & _ & _ & ->)]; eexists; reflexivity. }
           assert (H1 : existsb (fun c => is_true (eval_c d z jr c)) exs = existsb (fun c => is_true (eval_c d z jr0 c)) exs).
           { clear - Hex Hfst. induction exs as [|c l IHl]; [reflexivity|]. apply Forall_cons_iff in Hex.
             destruct Hex as [(t0 & on0 & ->) Hex]. cbn [existsb]. rewrite !eval_exists, Hfst, IHl by exact Hex. reflexivity. }
           assert (H2 : existsb (fun nc => is_true (eval_c d z jr (QNotNull (fst nc) (snd nc)))) cols =
                        existsb (fun nc => is_true (eval_c d z jr0 (QNotNull (fst nc) (snd nc)))) cols).
           { clear - Hcol Hsnd. destruct Hsnd as (o0 & Hs). induction cols as [|[a c] l IHl]; [reflexivity|]. cbn [existsb].
             rewrite IHl by (intros; eapply Hcol; right; eassumption). f_equal. cbn [eval_c fst snd]. unfold alias_value. rewrite Hs.
             assert (Hlt : a < n) by (apply (Hcol a c); left; reflexivity). cbn [dget].
             destruct (eq_dec a n) as [->|_]; [lia|]. reflexivity. }
           assert (H3 : existsb (fun nc => is_true (eval_c d z jr (QNotNull (fst nc) (snd nc)))) (map (fun c => (n, c)) (j_right_cols j))
                        = join_holds e (snd ir) j).
           { rewrite <- (holds_exists (snd ir) Hctx eq_refl), <- Eon.
             destruct Hcase as [(_ & Hno & ->)|(r' & Hr' & Hon' & ->)].
             - rewrite Hno. clear. induction (j_right_cols j) as [|c l IHl]; [reflexivity|]. cbn [map existsb].
               rewrite IHl, orb_false_r. cbn [eval_c fst snd]. unfold alias_value. cbn [snd dget].
               destruct (eq_dec n n); [reflexivity|contradiction].
             - assert (He : existsb (on_holds d (snd ir) on) (db_rows d (t_ref rt)) = true) by (apply existsb_exists; exists r'; tauto).
               rewrite He. apply existsb_exists.
               destruct (j_right_cols j) as [|c l] eqn:Er.
               { exfalso. destruct Hj as [Hne' Hlen]. rewrite Er in Hlen. destruct (j_left_cols j); [contradiction|discriminate]. }
               exists (n, c). split; [left; reflexivity|]. cbn [eval_c fst snd]. unfold alias_value. cbn [snd dget].
               destruct (eq_dec n n); [|contradiction].
               assert (Hnn : rget r' c <> VNull).
               { apply (@match_nonnull j (snd ir) r' c Hj); [|rewrite Er; left; reflexivity].
                 rewrite <- on_holds_match, Er, <- Eon. exact Hon'. }
               destruct (rget r' c); [contradiction|reflexivity..]. }
           rewrite H1, H2, H3. rewrite orb_assoc. reflexivity.
      * intros ir. rewrite forallb_app. cbn [forallb]. rewrite andb_true_r, <- (Hmain ir).
        assert (Hn : is_nil (gfrom d (FJoin from n rt on false) ir) = is_nil (gfrom d from ir) || negb (join_holds e (snd ir) j)).
        { rewrite <- (holds_exists (snd ir) Hctx eq_refl), <- Eon.
          destruct (is_nil (gfrom d from ir)) eqn:En.
          - destruct (gfrom d from ir) eqn:Eg; [|discriminate]. cbn [gfrom]. rewrite Eg. reflexivity.
          - cbn [orb]. destruct (existsb (on_holds d (snd ir) on) (db_rows d (t_ref rt))) eqn:Ee; cbn [negb].
            + apply is_nil_false in En. destruct En as (jr0 & H0).
              apply existsb_exists in Ee. destruct Ee as (r' & Hr' & Ho). apply is_nil_false.
              exists (fst jr0, (n, Some r') :: snd jr0). apply gfrom_join. exists jr0. split; [exact H0|]. right. exists r'. tauto.
            + destruct (gfrom d (FJoin from n rt on false) ir) as [|jr l] eqn:Eg; [reflexivity|]. exfalso.
              assert (Hin : In jr (gfrom d (FJoin from n rt on false) ir)) by (rewrite Eg; left; reflexivity).
              apply gfrom_join in Hin. destruct Hin as (jr0 & H0 & [(Hc & _)|(r' & Hr' & Ho & _)]); [discriminate|].
              assert (He : existsb (on_holds d (snd ir) on) (db_rows d (t_ref rt)) = true) by (apply existsb_exists; exists r'; tauto).
              congruence. }
        rewrite Hn, negb_orb, negb_involutive. destruct (negb (is_nil (gfrom d from ir))), (join_holds e (snd ir) j),
          (forallb (fun c => is_true (eval_c d z (ir, []) c)) exs); reflexivity.
    + revert Hb. apply IH; [exact Hwf|].
      split; [exact Hbase|]. split. { apply Forall_app. split; [exact Hex|]. constructor; [eauto|constructor]. }
      split; [exact Hpk|]. split; [intros Hn; destruct done; discriminate|].
      split; [intros a c Hin; specialize (Hcol a c Hin); lia|].
      split; [intros ir jr a o Hjr Hin; specialize (Hal ir jr a o Hjr Hin); lia|].
      destruct outer.
      * destruct Hmain as [_ Hmain]. split; [intros _; left; intros Hn; apply app_eq_nil in Hn; destruct Hn; discriminate|].
        intros ir. destruct (Hmain ir) as [Hne Hval]. split; [exact Hne|]. intros jr Hjr. rewrite !existsb_app.
        cbn [existsb]. rewrite !orb_false_r, <- (Hval jr Hjr), eval_exists, is_true_tv, (gfrom_fst Hjr), Eon,
          (holds_exists (snd ir) Hctx eq_refl).
        destruct (join_holds e (snd ir) j), (existsb _ exs), (existsb _ cols); reflexivity.
      * intros ir. rewrite !forallb_app. cbn [forallb]. rewrite !andb_true_r, <- (Hmain ir), eval_exists, is_true_tv.
        cbn [fst]. rewrite Eon, (holds_exists (snd ir) Hctx eq_refl), andb_assoc. reflexivity.
Qed.

(** Value of the built join part: rows kept. *)
Lemma fold_or_existsb {A} (f : A -> tv) l :
  (forall a, In a l -> f a <> U3) -> is_true (fold_right or3 F3 (map f l)) = existsb (fun a => is_true (f a)) l.
Proof.
  intros Hu. change (fold_right or3 F3 (map f l)) with (any3 (map f l)).
  destruct (existsb (fun a => is_true (f a)) l) eqn:Ee.
  - apply existsb_exists in Ee. destruct Ee as (a & Ha & Ht).
    assert (Hx : any3 (map f l) = T3). { apply any3_T. apply in_map_iff. exists a. split; [|exact Ha]. destruct (f a); try discriminate. reflexivity. }
    rewrite Hx. reflexivity.
  - destruct (any3 (map f l)) eqn:Ea; try reflexivity. apply any3_T in Ea. apply in_map_iff in Ea. destruct Ea as (a & Hfa & Ha).
    assert (Hx : existsb (fun a => is_true (f a)) l = true) by (apply existsb_exists; exists a; rewrite Hfa; tauto). congruence.
Qed.
Lemma fold_and_forallb {A} (f : A -> tv) l :
  is_true (fold_right and3 T3 (map f l)) = forallb (fun a => is_true (f a)) l.
Proof.
  induction l as [|a l IH]; [reflexivity|]. cbn [map fold_right forallb]. rewrite <- IH.
  destruct (f a), (fold_right and3 T3 (map f l)); reflexivity.
Qed.

Lemma join_part_spec t joins outer s f gb wheres s' :
  joins_wf joins ->
  build_join_part context t joins outer s = Ok ((f, gb, wheres), s') ->
  base_of f = t /\ (gb = None -> is_join f = false) /\ (forall pk, gb = Some pk -> pk = t_pk t /\ pk <> []) /\
  forall ir, 
    (forall jr, In jr (gfrom d f ir) -> 
       forallb (fun c => is_true (eval_c d z jr c)) wheres = 
       forallb (fun c => is_true (eval_c d z (ir, []) c)) (if outer then [] else wheres) &&
       (if outer then joins_hold e joins outer (snd ir) else true)) /\
    negb (is_nil (gfrom d f ir)) && (forallb (fun c => is_true (eval_c d z (ir, []) c)) (if outer then [] else wheres) &&
       (if outer then joins_hold e joins outer (snd ir) else true)) = joins_hold e joins outer (snd ir).
Proof.
  intros Hwf Hb. destruct joins as [[|j js]|].
  1,3: cbn in Hb; inv Hb; cbn [base_of is_join gfrom]; (split; [reflexivity|]); (split; [reflexivity|]);
      (split; [discriminate|]); intros ir; split;
      [intros jr [<-|[]]; destruct outer; reflexivity|destruct outer; reflexivity].
  unfold build_join_part in Hb. apply bind_Ok in Hb. destruct Hb as ([[[from cols] exs] s1] & Hj & Hb).
  inv Hb.
  assert (H0 : jinv t outer [] 0 (FTable t) [] []).
  { unfold jinv. cbn [base_of is_join gfrom]. split; [reflexivity|]. split; [constructor|]. split; [discriminate|].
    split; [reflexivity|]. split; [intros a c []|]. split; [intros ir jr a o [<-|[]] []|].
    destruct outer; [split; [tauto|]|]; intros ir; [|reflexivity]. split; [discriminate|]. intros jr _. reflexivity. }
  pose proof (build_joins_inv (done := []) Hwf H0 Hj) as Hinv. cbn [app fst snd] in Hinv.
  destruct Hinv as (Hbase & Hex & Hpk & _ & Hcol & Hal & Hmain).
  split; [exact Hbase|]. split; [destruct (is_join f); [discriminate|reflexivity]|].
  split. { intros pk Hpk'. destruct (is_join f) eqn:Ej; [|discriminate]. inv Hpk'. split; [reflexivity|apply Hpk; reflexivity]. }
  intros ir.
  assert (Hexeq : forall jr, In jr (gfrom d f ir) ->
     forallb (fun c => is_true (eval_c d z jr c)) exs = forallb (fun c => is_true (eval_c d z (ir, []) c)) exs).
  { intros jr Hjr. pose proof (gfrom_fst Hjr) as Hf. clear - Hex Hf. induction exs as [|c l IHl]; [reflexivity|].
    apply Forall_cons_iff in Hex. destruct Hex as [(t0 & on0 & ->) Hex]. cbn [forallb]. rewrite !eval_exists, Hf, IHl by exact Hex. reflexivity. }
  destruct outer.
  - destruct Hmain as [_ Hmain]. destruct (Hmain ir) as [Hne Hval]. cbn [forallb andb].
    split.
    + intros jr Hjr. rewrite andb_true_r.
      change (eval_c d z jr (QOr (exs ++ map (fun nc => QNotNull (fst nc) (snd nc)) cols)))
        with (fold_right or3 F3 (map (eval_c d z jr) (exs ++ map (fun nc => QNotNull (fst nc) (snd nc)) cols))).
      rewrite fold_or_existsb.
      * rewrite existsb_app. cbn [joins_hold]. rewrite <- (Hval jr Hjr). f_equal.
        clear. induction cols as [|nc l IHl]; [reflexivity|]. cbn [map existsb]. rewrite IHl. reflexivity.
      * intros c Hin. apply in_app_iff in Hin. destruct Hin as [Hin|Hin].
        -- pose proof (proj1 (Forall_forall _ _) Hex c Hin) as (t0 & on0 & ->). rewrite eval_exists.
           match goal with |- tv_of ?b <> _ => destruct b end; cbn [tv_of]; discriminate.
        -- apply in_map_iff in Hin. destruct Hin as ([a c0] & <- & _). cbn [eval_c fst snd]. destruct (alias_value jr a c0); cbn; discriminate.
    + destruct (gfrom d f ir); [contradiction|]. reflexivity.
  - rewrite andb_true_r. 
    assert (Hw : forall jr, forallb (fun c => is_true (eval_c d z jr c)) (match exs with [] => [] | _ => [QAnd exs] end) =
                 forallb (fun c => is_true (eval_c d z jr c)) exs).
    { intros jr. destruct exs as [|c l]; [reflexivity|]. cbn [forallb]. rewrite andb_true_r.
      change (eval_c d z jr (QAnd (c :: l))) with (fold_right and3 T3 (map (eval_c d z jr) (c :: l))).
      rewrite fold_and_forallb. reflexivity. }
    split.
    + intros jr Hjr. rewrite !Hw, ?andb_true_r. apply Hexeq. exact Hjr.
    + rewrite Hw. cbn [joins_hold]. apply Hmain.
Qed.

Definition wc_good (c : wc) : Prop := wc_wf c -> forall t s q s', build_wc context t c s = Ok (q, s') ->
  forall jr, eval_c d z jr q = eval_wc e z (fst (fst jr)) (snd (fst jr)) c.
Definition sel_good (x : sel) : Prop := sel_wf x -> forall s q s', build_sel context x s = Ok (q, s') ->
  eval_query d z q = sem_sel e z x.
Definition stmt_good (st : stmt) : Prop := stmt_wf st -> forall s q s', build_stmt context st s = Ok (q, s') ->
  eval_query d z q = sem_stmt e z st.

Fixpoint build_wcs (t : tobj) (l : list wc) (s : S) : res build_exn (list sqlc * S) :=
  match l with
  | [] => Ok ([], s)
  | c :: l' => let* (q, s) := build_wc context t c s in let* (qs, s) := build_wcs t l' s in Ok (q :: qs, s)
  end.
Lemma build_wc_and t l s : build_wc context t (WAnd l) s =
  match l with [] => Ok (QTrue, s) | _ => let* (l', s) := build_wcs t l s in Ok (QAnd l', s) end.
Proof.
  destruct l as [|c l]; [reflexivity|]. cbn [build_wc build_wcs].
  destruct (build_wc context t c s) as [[q0 s0]|]; [|reflexivity]. cbn [bind].
  match goal with |- bind (bind (?g l s0) _) _ = _ => assert (Hg : forall k s, g k s = build_wcs t k s) end.
  { induction k as [|c' k IH]; intros s2; [reflexivity|]. cbn [build_wcs]. destruct (build_wc context t c' s2) as [[q s1]|]; [|reflexivity].
    cbn [bind]. rewrite IH. reflexivity. }
  rewrite Hg. reflexivity.
Qed.
Lemma build_wc_or t l s : build_wc context t (WOr l) s =
  match l with [] => Ok (QFalse, s) | _ => let* (l', s) := build_wcs t l s in Ok (QOr l', s) end.
Proof.
  destruct l as [|c l]; [reflexivity|]. cbn [build_wc build_wcs].
  destruct (build_wc context t c s) as [[q0 s0]|]; [|reflexivity]. cbn [bind].
  match goal with |- bind (bind (?g l s0) _) _ = _ => assert (Hg : forall k s, g k s = build_wcs t k s) end.
  { induction k as [|c' k IH]; intros s2; [reflexivity|]. cbn [build_wcs]. destruct (build_wc context t c' s2) as [[q s1]|]; [|reflexivity].
    cbn [bind]. rewrite IH. reflexivity. }
  rewrite Hg. reflexivity.
Qed.
Fixpoint build_sels (l : list sel) (s : S) : res build_exn (list query * S) :=
  match l with
  | [] => Ok ([], s)
  | c :: l' => let* (q, s) := build_sel context c s in let* (qs, s) := build_sels l' s in Ok (q :: qs, s)
  end.
Lemma build_union l s : build_stmt context (SUnion l) s = let* (l', s) := build_sels l s in Ok (QUnion l', s).
Proof.
  cbn [build_stmt].
  match goal with |- bind (?g l s) _ = _ => set (G := g) end.
  assert (Hg : forall k s, G k s = build_sels k s).
  { induction k as [|c' k IH]; intros s0; [reflexivity|]. cbn [build_sels].
    change (G (c' :: k) s0) with (let* (q, s) := build_sel context c' s0 in let* (qs, s) := G k s in Ok (q :: qs, s)).
    destruct (build_sel context c' s0) as [[q s1]|]; [|reflexivity].
    cbn [bind]. rewrite IH. reflexivity. }
  rewrite Hg. reflexivity.
Qed.

Lemma build_wcs_good l : Forall wc_good l -> Forall wc_wf l -> forall t s qs s', build_wcs t l s = Ok (qs, s') ->
  forall jr, map (eval_c d z jr) qs = map (eval_wc e z (fst (fst jr)) (snd (fst jr))) l.
Proof.
  induction l as [|c l IH]; intros HP Hwf t s qs s' Hb jr; cbn [build_wcs] in Hb; [inv Hb; reflexivity|].
  apply Forall_cons_iff in HP. destruct HP as [HP1 HP2]. apply Forall_cons_iff in Hwf. destruct Hwf as [Hwf1 Hwf2].
  apply bind_Ok in Hb. destruct Hb as ([q s1] & Hq & Hb). apply bind_Ok in Hb. destruct Hb as ([qs1 s2] & Hqs & Hb). inv Hb.
  cbn [map]. rewrite (HP1 Hwf1 _ _ _ _ Hq jr), (IH HP2 Hwf2 _ _ _ _ Hqs jr). reflexivity.
Qed.
Lemma build_sels_good l : Forall sel_good l -> Forall sel_wf l -> forall s qs s', build_sels l s = Ok (qs, s') ->
  map (eval_query d z) qs = map (sem_sel e z) l.
Proof.
  induction l as [|c l IH]; intros HP Hwf s qs s' Hb; cbn [build_sels] in Hb; [inv Hb; reflexivity|].
  apply Forall_cons_iff in HP. destruct HP as [HP1 HP2]. apply Forall_cons_iff in Hwf. destruct Hwf as [Hwf1 Hwf2].
  apply bind_Ok in Hb. destruct Hb as ([q s1] & Hq & Hb). apply bind_Ok in Hb. destruct Hb as ([qs1 s2] & Hqs & Hb). inv Hb.
  cbn [map]. rewrite (HP1 Hwf1 _ _ _ Hq), (IH HP2 Hwf2 _ _ _ Hqs). reflexivity.
Qed.

Lemma existsb_const {A} (p : A -> bool) b l : (forall x, In x l -> p x = b) -> existsb p l = negb (is_nil l) && b.
Proof.
  intros Hp. destruct l as [|x l]; [reflexivity|]. cbn [existsb is_nil negb andb].
  rewrite (Hp x (or_introl eq_refl)). destruct b; [reflexivity|]. cbn [orb].
  induction l as [|y l IH]; [reflexivity|]. cbn [existsb]. rewrite (Hp y (or_intror (or_introl eq_refl))). cbn [orb].
  apply IH. intros w [->|Hw]; apply Hp; [left; reflexivity|right; right; exact Hw].
Qed.

Lemma keep_rows f gb (base : list (nat * row)) (p : jrow -> bool) (h : nat * row -> bool) pk :
  base = indexed (db_rows d (t_ref (base_of f))) ->
  (forall ir jr, In jr (gfrom d f ir) -> p jr = h ir) ->
  (gb = None -> is_join f = false) ->
  (forall k, gb = Some k -> k = pk /\ NoDup (map (fun r => map (rget r) pk) (db_rows d (t_ref (base_of f))))) ->
  map fst (match gb with None => filter p (eval_from d f)
           | Some k => group_first (fun jr => map (rget (snd (fst jr))) k) [] (filter p (eval_from d f)) end)
  = filter (fun ir => negb (is_nil (gfrom d f ir)) && h ir) base.
Proof.
  intros Hbase Hp Hn Hs. rewrite eval_from_gfrom. destruct gb as [k|].
  - destruct (Hs k eq_refl) as [-> Hnd].
    rewrite (group_flat (key := fun jr => map (rget (snd (fst jr))) pk) (g := gfrom d f)
               (kr := fun ir => map (rget (snd ir)) pk) p).
    + rewrite <- Hbase. apply filter_ext. intros ir. apply existsb_const. intros jr Hjr. apply Hp. exact Hjr.
    + intros ir jr Hjr. rewrite (gfrom_fst Hjr). tauto.
    + rewrite <- (map_map snd (fun r => map (rget r) pk)), indexed_snd. exact Hnd.
  - specialize (Hn eq_refl). destruct f as [t|]; [|discriminate]. cbn [gfrom base_of] in *. rewrite <- Hbase. clear Hbase.
    induction base as [|ir l IHl]; [reflexivity|]. cbn [flat_map app filter]. rewrite (Hp ir (ir, []) (or_introl eq_refl)).
    cbn [is_nil negb andb]. destruct (h ir); cbn [map fst]; rewrite IHl; reflexivity.
Qed.

Lemma build_good : (forall c, wc_good c) /\ (forall x, sel_good x) /\ (forall st, stmt_good st).
Proof.
  assert (HF : wc_good WFalse) by (intros _ t s q s' Hb jr; inv Hb; destruct jr as [[? ?] ?]; reflexivity).
  assert (HT : wc_good WTrue) by (intros _ t s q s' Hb jr; inv Hb; destruct jr as [[? ?] ?]; reflexivity).
  assert (HOp : forall op c v, wc_good (WOp op c v)).
  { intros op c v _ t s q s' Hb jr. cbn [build_wc] in Hb. apply bind_Ok in Hb. destruct Hb as (u & _ & Hb). inv Hb.
    destruct jr as [[i r] al]. destruct op; cbn [build_op eval_c eval_wc op3 fst snd]; rewrite cmp3_env; reflexivity. }
  assert (HIV : forall cs vs n, wc_good (WInVals cs vs n)).
  { intros cs vs n _ t s q s' Hb jr. cbn [build_wc] in Hb. apply bind_Ok in Hb. destruct Hb as (u & _ & Hb). inv Hb.
    destruct jr as [[i r] al]. destruct n; cbn [eval_c eval_wc fst snd]; rewrite in3_env; reflexivity. }
  assert (HIS : forall cs s n, stmt_good s -> wc_good (WInStmt cs s n)).
  { intros cs st n IH Hwf t s q s' Hb jr. cbn [build_wc] in Hb. apply bind_Ok in Hb. destruct Hb as (u & _ & Hb).
    apply bind_Ok in Hb. destruct Hb as ([q1 s1] & Hq & Hb). inv Hb. specialize (IH Hwf _ _ _ Hq).
    destruct jr as [[i r] al]. destruct n; cbn [eval_c eval_wc fst snd]; rewrite in3_env, IH; reflexivity. }
  assert (HA : forall l, Forall wc_good l -> wc_good (WAnd l)).
  { intros l IH Hwf t s q s' Hb jr. rewrite build_wc_and in Hb. apply fold_and_map in Hwf. destruct l as [|c l].
    - inv Hb. destruct jr as [[? ?] ?]; reflexivity.
    - apply bind_Ok in Hb. destruct Hb as ([qs s1] & Hq & Hb). inv Hb. 
      change (eval_c d z jr (QAnd qs)) with (fold_right and3 T3 (map (eval_c d z jr) qs)).
      rewrite (build_wcs_good IH Hwf Hq jr). reflexivity. }
  assert (HO : forall l, Forall wc_good l -> wc_good (WOr l)).
  { intros l IH Hwf t s q s' Hb jr. rewrite build_wc_or in Hb. apply fold_and_map in Hwf. destruct l as [|c l].
    - inv Hb. destruct jr as [[? ?] ?]; reflexivity.
    - apply bind_Ok in Hb. destruct Hb as ([qs s1] & Hq & Hb). inv Hb. 
      change (eval_c d z jr (QOr qs)) with (fold_right or3 F3 (map (eval_c d z jr) qs)).
      rewrite (build_wcs_good IH Hwf Hq jr). reflexivity. }
  assert (HR : forall q, wc_good (WRandom q)) by (intros q _ t s q' s' Hb jr; inv Hb; destruct jr as [[? ?] ?]; reflexivity).
  assert (HS : forall s ps, wc_good (WSQL s ps)).
  { intros sql ps _ t s q' s' Hb jr; inv Hb; destruct jr as [[? ?] ?]. cbn [eval_c eval_wc fst snd]. rewrite text_eq. reflexivity. }
  assert (HSel : forall cs f w lim js o, opt_P wc_good w -> sel_good (Sel cs f w lim js o)).
  { intros cs f w lim js o Hw Hwf s q s' Hb. cbn [build_sel] in Hb.
    apply bind_Ok in Hb. destruct Hb as ([t s1] & Ht & Hb). apply bind_Ok in Hb. destruct Hb as (u & _ & Hb).
    apply bind_Ok in Hb. destruct Hb as ([[[fr gb] ws] s2] & Hj & Hb). apply bind_Ok in Hb. destruct Hb as ([ws' s3] & Hws & Hb).
    inv Hb.
    assert (Hjw : joins_wf js) by (destruct w; cbn [sel_wf] in Hwf; tauto).
    destruct (join_part_spec Hjw Hj) as (Hbase & Hnone & Hsome & Hrows).
    assert (Hws' : exists tail, ws' = ws ++ tail /\ forall jr,
       forallb (fun c => is_true (eval_c d z jr c)) tail =
       match w with None => true | Some w => is_true (eval_wc e z (fst (fst jr)) (snd (fst jr)) w) end).
    { destruct w as [w|].
      - apply bind_Ok in Hws. destruct Hws as ([qw s4] & Hq & Hws). inv Hws. exists [qw]. split; [reflexivity|].
        intros jr. cbn [forallb]. rewrite andb_true_r. rewrite (Hw (proj2 Hwf) _ _ _ _ Hq jr). reflexivity.
      - inv Hws. exists []. split; [rewrite app_nil_r; reflexivity|]. reflexivity. }
    destruct Hws' as (tail & -> & Htail).
    cbn [eval_query sem_sel].
    set (h := fun ir : nat * row => (forallb (fun c => is_true (eval_c d z (ir, []) c)) (if o then [] else ws) &&
       (if o then joins_hold e js o (snd ir) else true)) && 
       match w with None => true | Some w => is_true (eval_wc e z (fst ir) (snd ir) w) end).
    pose proof (@keep_rows fr gb (indexed (contents e f)) (fun jr => forallb (fun c => is_true (eval_c d z jr c)) (ws ++ tail)) h (t_pk t)) as Hk.
    f_equal. f_equal. etransitivity; [apply Hk|]; clear Hk.
    5:{ apply filter_ext. intros ir. unfold h. destruct (Hrows ir) as [_ Hjh].
      rewrite andb_assoc, Hjh. reflexivity. }
    - rewrite Hbase. f_equal. symmetry. exact (ctx_rows Ht).
    - intros ir jr Hjr. rewrite forallb_app, Htail. destruct (Hrows ir) as [Hpj _]. rewrite (Hpj jr Hjr), (gfrom_fst Hjr). reflexivity.
    - exact Hnone.
    - intros k Hk. destruct (Hsome k Hk) as [Hkk Hne]. split; [exact Hkk|]. rewrite Hbase. rewrite Hkk in Hne. exact (ctx_pk Ht Hne). }
  assert (HSS : forall x, sel_good x -> stmt_good (SSelect x)) by (intros x Hx; exact Hx).
  assert (HSU : forall l, Forall sel_good l -> stmt_good (SUnion l)).
  { intros l IH Hwf s q s' Hb. rewrite build_union in Hb. apply fold_and_map in Hwf.
    apply bind_Ok in Hb. destruct Hb as ([qs s1] & Hq & Hb). inv Hb. cbn [eval_query sem_stmt].
    rewrite (build_sels_good IH Hwf Hq). reflexivity. }
  split; [|split].
  - exact (wc_i HF HT HOp HIV HIS HA HO HR HS HSel HSS HSU).
  - exact (sel_i HF HT HOp HIV HIS HA HO HR HS HSel HSS HSU).
  - exact (stmt_i HF HT HOp HIV HIS HA HO HR HS HSel HSS HSU).
Qed.
End Build.

(** Two joins that differ in the [half_unique] flag only. *)
Definition same_join (j j' : join) : Prop :=
  j_right j = j_right j' /\ j_left_cols j = j_left_cols j' /\ j_right_cols j = j_right_cols j'.

Lemma same_join_sem e z cs f w lim js js' o :
  Forall2 same_join js js' ->
  sem_sel e z (Sel cs f w lim (Some js) o) = sem_sel e z (Sel cs f w lim (Some js') o).
Proof.
  intros H2. cbn [sem_sel]. f_equal. f_equal. apply filter_ext. intros ir. f_equal.
  assert (Hj : forall j j', same_join j j' -> join_holds e (snd ir) j = join_holds e (snd ir) j').
  { intros j j' (Ha & Hb & Hc). unfold join_holds, join_match. rewrite Ha, Hb, Hc. reflexivity. }
  destruct o; cbn [joins_hold].
  - assert (He : existsb (join_holds e (snd ir)) js = existsb (join_holds e (snd ir)) js').
    { induction H2 as [|j j' l l' H1 H2 IH]; [reflexivity|]. cbn [existsb]. rewrite (Hj _ _ H1), IH. reflexivity. }
    destruct H2; [reflexivity|exact He].
  - assert (He : forallb (join_holds e (snd ir)) js = forallb (join_holds e (snd ir)) js').
    { induction H2 as [|j j' l l' H1 H2 IH]; [reflexivity|]. cbn [forallb]. rewrite (Hj _ _ H1), IH. reflexivity. }
    destruct H2; [reflexivity|exact He].
Qed.

Theorem build_stmt_rows {S} (context : ident -> S -> res build_exn (tobj * S)) (e : sqlenv) (d : dbenv) (z : rnd) st s q s' :
  db_cmp d = cmp e -> db_text d = text e ->
  (forall id s t s', context id s = Ok (t, s') -> db_rows d (t_ref t) = contents e id) ->
  (forall id s t s', context id s = Ok (t, s') -> t_pk t <> [] ->
     NoDup (map (fun r => map (rget r) (t_pk t)) (db_rows d (t_ref t)))) ->
  stmt_wf st -> build_stmt context st s = Ok (q, s') -> eval_query d z q = sem_stmt e z st.
Proof.
  intros H1 H2 H3 H4 Hwf Hb. destruct (build_good z H1 H2 H3 H4) as (_ & _ & Hst). exact (Hst st Hwf s q s' Hb).
Qed.

Theorem build_flags {S} (context : ident -> S -> res build_exn (tobj * S)) (e : sqlenv) (d : dbenv) (z : rnd)
    cs f w lim js js' o s q s1 s' q' s1' :
  db_cmp d = cmp e -> db_text d = text e ->
  (forall id s t s', context id s = Ok (t, s') -> db_rows d (t_ref t) = contents e id) ->
  (forall id s t s', context id s = Ok (t, s') -> t_pk t <> [] ->
     NoDup (map (fun r => map (rget r) (t_pk t)) (db_rows d (t_ref t)))) ->
  sel_wf (Sel cs f w lim (Some js) o) -> Forall2 same_join js js' ->
  build_sel context (Sel cs f w lim (Some js) o) s = Ok (q, s1) ->
  build_sel context (Sel cs f w lim (Some js') o) s' = Ok (q', s1') ->
  eval_query d z q = eval_query d z q'.
Proof.
  intros H1 H2 H3 H4 Hwf Hsame Hb Hb'. destruct (build_good z H1 H2 H3 H4) as (_ & Hsel & _).
  rewrite (Hsel _ Hwf _ _ _ Hb). rewrite (same_join_sem e z cs f w lim o Hsame). symmetry. eapply Hsel; [|exact Hb'].
  assert (Hj : Forall join_wf js -> Forall join_wf js').
  { clear - Hsame. induction Hsame as [|j j' l l' (Ha & Hb & Hc) H2 IH]; intros Hf; [constructor|].
    apply Forall_cons_iff in Hf. destruct Hf as [[Hf1 Hf2] Hf]. constructor; [|apply IH; exact Hf].
    split; congruence. }
  destruct w; cbn [sel_wf joins_wf] in *; intuition.
Qed.
