(** Properties C133 and C134: several runs and other programs write to a destination at the same time. *)
From Coq Require Import Lia.
From Verif Require Import Model.Base Model.Value Model.Names Model.PlanModel Model.Metadata Model.Planner Model.Filters Model.Multiply Model.Output Model.Sampler.
From Verif Require Import Spec.GraphSpec Spec.SchemaSpec Spec.SqlSem Spec.PlannerSpec Spec.OutputSpec Spec.RunSpec Spec.SampleSpec Spec.MomentsSpec Spec.SharedSpec.
From Verif Require Import Proofs.BaseFacts Proofs.NameFacts Proofs.MetadataMain Proofs.SampleExamples Proofs.OutputExamples Proofs.Shared.
From Verif Require Props.PlannerProps Props.CopiesProps Props.CompactWholeProps Props.OutputProps Props.MomentsProps.
From Verif Require Import Model.Dest.
Open Scope string_scope.
Open Scope list_scope.

(** C133 *)
Theorem C133_shared_consistent : forall dflt cmpf d0 l d, meanwhile dflt (careful_run dflt cmpf) (careful_others cmpf) d0 l d ->
  holding cmpf d0 -> holding cmpf d.
Proof. exact shared_holding. Qed.
Theorem C133_nothing_lost : forall dflt d0 l d, meanwhile dflt keeping_run keeping_others d0 l d -> forall n, incl (rows_of d0 n) (rows_of d n).
Proof. exact (fun dflt d0 l d H => proj1 (shared_kept H)). Qed.
(** C134: [x] was given for the table [t], where keys that are taken are errors. *)
Theorem C134_own_rows_partial : forall dflt G (E : env G) cfg c p g d0 l d d1 w' r done todo t n' x,
  meanwhile dflt (settled_run dflt) settled_others d0 l d -> In (done, todo) l ->
  run_ok E cfg c p d1 -> sample E cfg p false false g (mkWorld d1 []) = (w', r) -> done ++ todo = trace w' ->
  In t (dkeys (p_queries p)) -> lands (en_resub E) (oc_remap c) t n' -> strategy_of c p t = SError -> In x (written done n') ->
  there_as_given d n' x.
Proof. exact own_rows. Qed.
(** If keys that are taken are errors for a referenced table, then the rows of a run refer to rows of the same run, which are there. *)
Theorem C134_own_references_partial : forall dflt G (E : env G) cfg c p pcfg g d0 l d d1 w' r done todo n' tb fk' x,
  meanwhile dflt (settled_run dflt) settled_others d0 l d -> In (done, todo) l ->
  good_start E cfg c p pcfg (mkWorld d1 []) -> sample E cfg p false false g (mkWorld d1 []) = (w', r) -> done ++ todo = trace w' ->
  table_of (ds_tables (w_dest w')) n' tb -> In fk' (tb_fks tb) -> carried_over E cfg c p pcfg false (mkWorld d1 []) (ds_tables (w_dest w')) n' fk' ->
  (forall td, In td (dkeys (p_queries p)) -> lands (en_resub E) (oc_remap c) td (fk_dst fk') -> strategy_of c p td = SError) ->
  In x (written done n') -> (forall k, In k (fk_cols fk') -> rget x k <> VNull) ->
  exists xd, In xd (written done (fk_dst fk')) /\ refers (en_cmp E) fk' x xd /\ there_as_given d (fk_dst fk') xd.
Proof. exact own_references. Qed.
Print Assumptions C133_shared_consistent.
Print Assumptions C133_nothing_lost.
Print Assumptions C134_own_rows_partial.
Print Assumptions C134_own_references_partial.

(** ** C133: two runs; while they write, another program refers to a group; the second run is stopped before its children *)
Notation menv := MomentsProps.menv.
Notation mout s := (CopiesProps.kout CompactWholeProps.vremap s false).
Notation mcfg s := (CopiesProps.kcfg (mout s) 1 false).
Notation mplan := WholeRunProps.wplan.
Definition mrun (s : strategy) (d : dest) : world * res out_exn unit := sample menv (mcfg s) mplan false false tt (mkWorld d []).
Definition after (d : dest) (e : event) : dest := match exec odflt d e with Some d' => d' | None => d end.
Definition d0 : dest := w_dest MomentsProps.mbefore.
Definition todoA : list event := trace (fst (mrun SSkip d0)).
Definition d1 : dest := fold_left after (firstn 1 todoA) d0.
Definition todoB : list event := trace (fst (mrun SReplace d1)).
Definition d2 : dest := with_rows d1 ("z", "audit") (rows_of d1 ("z", "audit") ++ [ [("aid", VInt 2); ("who", VInt 100)] ]).
Definition d3 : dest := fold_left after (firstn 2 todoB) d2.
Definition d4 : dest := fold_left after (skipn 1 todoA) d3.

Lemma m_careful s d : s = SSkip \/ s = SReplace -> ds_tables d = MomentsProps.mtables -> careful_run odflt PlannerProps.xcmp d (trace (fst (mrun s d))).
Proof.
  intros Hs Hd. destruct (mrun s d) as [w' r] eqn:Er. cbn [fst]. assert (Hgood := MomentsProps.m_good s (mkWorld d []) Hd eq_refl).
  destruct (plain_events (w := mkWorld d []) (proj1 (proj2 (proj2 Hgood))) eq_refl Er) as [Ht _].
  eapply careful with (E := menv) (w' := w'); [reflexivity|reflexivity|exact Hgood|exact Er|]. rewrite Ht. cbn [w_dest]. rewrite Hd.
  intros n tb fk H1 H2. exact (MomentsProps.m_respected s false _ n tb fk H1 H2).
Qed.
Lemma continue_all dflt begins others d0 : forall todo1 l1 l2 done todo2 d d', meanwhile dflt begins others d0 (l1 ++ (done, todo1 ++ todo2) :: l2) d -> replay dflt d todo1 d' ->
  meanwhile dflt begins others d0 (l1 ++ (done ++ todo1, todo2) :: l2) d'.
Proof.
  induction todo1 as [|e todo1 IH]; intros l1 l2 done todo2 d d' H Hr; inversion Hr as [|? ? dx ? ? Hx Hr']; subst; [rewrite app_nil_r; exact H|].
  assert (H1 := run_continues _ _ _ _ _ _ _ _ _ _ _ H Hx). assert (H2 := IH _ _ _ _ _ _ H1 Hr'). rewrite <- app_assoc in H2. exact H2.
Qed.
Ltac replays := vm_compute; repeat (econstructor; [vm_compute; reflexivity|]); constructor.
Lemma m_others : careful_others PlannerProps.xcmp d1 d2.
Proof.
  split; [reflexivity|]. split.
  - intros n. destruct (eq_dec n ("z", "audit")) as [->|Hn]; [|unfold d2; rewrite OutputMain.rows_with_other by exact Hn; apply incl_refl].
    unfold d2. rewrite OutputMain.rows_with_same. apply incl_appl, incl_refl.
  - intros _ n tb fk Ht Hf. apply MomentsProps.fk_holdsb_true. destruct (MomentsProps.m_fks _ _ _ Ht Hf) as [[-> ->]|[[-> ->]|[-> ->]]]; vm_compute; reflexivity.
Qed.
Example C133_case : exists l, meanwhile odflt (careful_run odflt PlannerProps.xcmp) (careful_others PlannerProps.xcmp) d0 l d4 /\
  holding PlannerProps.xcmp d0 /\ map (fun s => (length (fst s), length (snd s))) l = [(3, 0); (2, 1)] /\
  map MomentsProps.statement todoA = [("insert", ("b", "grp")); ("insert", ("c", "elders")); ("insert", ("a", "child"))] /\
  rows_of d4 ("z", "audit") = [ [("aid", VInt 1); ("who", VInt 200)]; [("aid", VInt 2); ("who", VInt 100)] ].
Proof.
  assert (H1 : meanwhile odflt (careful_run odflt PlannerProps.xcmp) (careful_others PlannerProps.xcmp) d0 [([], todoA)] d0)
    by (apply (run_begins _ _ _ _ [] d0 todoA); [constructor|apply m_careful; [left; reflexivity|reflexivity]]).
  rewrite <- (firstn_skipn 1 todoA) in H1. apply (continue_all _ _ _ _ _ [] [] _ _ _ d1) in H1; [|replays]. cbn [app] in H1.
  apply run_begins with (todo := todoB) in H1; [|apply m_careful; [right; reflexivity|reflexivity]].
  apply something_else with (d' := d2) in H1; [|exact m_others].
  rewrite <- (firstn_skipn 2 todoB) in H1. apply (continue_all _ _ _ _ _ [(firstn 1 todoA, skipn 1 todoA)] [] _ _ _ d3) in H1; [|replays].
  rewrite <- (app_nil_r (skipn 1 todoA)) in H1. apply (continue_all _ _ _ _ _ [] [([] ++ firstn 2 todoB, skipn 2 todoB)] _ _ _ d4) in H1; [|replays].
  eexists. split; [exact H1|]. split; [exact MomentsProps.m_before|]. vm_compute. repeat split.
Qed.

(** ** C134: two runs merge users and orders from different sources at the same time; both count from the same keys *)
Definition osource2 (n : tname) : list row :=
  if eqb n ("s", "users") then [OutputProps.user 1 "c"; OutputProps.user 2 "d"]
  else if eqb n ("s", "orders") then [OutputProps.order 10 2; OutputProps.order 11 1; OutputProps.order 12 2; OutputProps.order 13 1]
  else [].
Definition oenv2 : env unit :=
  Sampler.mkEnv ofilters String.eqb osub osets osets oschema osource2 (fun _ c => negb (String.eqb c "name")) (fun _ => true)
    xcmp xtext xraw xraw_cols xz xrank true odflt yes (fun _ _ => false)
    (fun n => if eqb n ("s", "ulog") then None else Some "id") (fun _ c => negb (String.eqb c "name")) none 1.
Definition merging (s : strategy) : db_config := mkDbConfig PostgreSQL [] s true.
Notation two := ["users"; "orders"].
Definition orun1 (s : strategy) : world * res out_exn unit := sample (oenv yes none) (ocfg (merging s)) (oplan two) false false tt OutputProps.old_dest.
Definition orun2 (s : strategy) : world * res out_exn unit := sample oenv2 (ocfg (merging s)) (oplan two) false false tt OutputProps.old_dest.
Definition both (s : strategy) : dest := fold_left after (trace (fst (orun2 s))) (fold_left after (trace (fst (orun1 s))) (w_dest OutputProps.old_dest)).
Lemma ok1 s : run_ok (oenv yes none) (ocfg (merging s)) (merging s) (oplan two) (w_dest OutputProps.old_dest).
Proof. apply orun_ok; vm_compute; reflexivity. Qed.
Lemma ok2 s : run_ok oenv2 (ocfg (merging s)) (merging s) (oplan two) (w_dest OutputProps.old_dest).
Proof.
  constructor; [reflexivity|apply db_okb_true; vm_compute; reflexivity|apply db_okb_true; vm_compute; reflexivity|intros l; apply Permutation_refl|intros n s' _; cbn; apply String.eqb_eq|].
  apply distinctb_true. vm_compute. reflexivity.
Qed.
Lemma settled1 s : s <> SReplace -> settled_run odflt (w_dest OutputProps.old_dest) (trace (fst (orun1 s))).
Proof. intros Hs. destruct (orun1 s) as [w' r] eqn:Er. eapply settled with (E := oenv yes none); [reflexivity|apply ok1|exact Hs|exact Er]. Qed.
Lemma settled2 s : s <> SReplace -> settled_run odflt (w_dest OutputProps.old_dest) (trace (fst (orun2 s))).
Proof. intros Hs. destruct (orun2 s) as [w' r] eqn:Er. eapply settled with (E := oenv2); [reflexivity|apply ok2|exact Hs|exact Er]. Qed.
(** With errors, the second run stops at its first statement. *)
Example C134_case : let T1 := trace (fst (orun1 SError)) in let T2 := trace (fst (orun2 SError)) in
  let d := fold_left after T1 (w_dest OutputProps.old_dest) in
  meanwhile odflt (settled_run odflt) settled_others (w_dest OutputProps.old_dest) [(T1, []); ([], T2)] d /\
  strategy_of (merging SError) (oplan two) "s.orders" = SError /\ In (OutputProps.order 17 9) (written T1 ("s", "orders")) /\
  exec odflt d (EvInsert ("s", "users") Fail [OutputProps.user 9 "c"; OutputProps.user 10 "d"]) = None /\ hd_error T2 = Some (EvInsert ("s", "users") Fail [OutputProps.user 9 "c"; OutputProps.user 10 "d"]).
Proof.
  cbv zeta. split; [|vm_compute; tauto].
  assert (H1 : meanwhile odflt (settled_run odflt) settled_others (w_dest OutputProps.old_dest) [([], trace (fst (orun1 SError)))] (w_dest OutputProps.old_dest))
    by (apply (run_begins _ _ _ _ [] _ _); [constructor|apply settled1; discriminate]).
  apply run_begins with (todo := trace (fst (orun2 SError))) in H1; [|apply settled2; discriminate]. cbn [app] in H1.
  rewrite <- (app_nil_r (trace (fst (orun1 SError)))) in H1. eapply (continue_all _ _ _ _ _ [] [([], trace (fst (orun2 SError)))]) in H1; [exact H1|]. replays.
Qed.
(** Two runs begin with empty tables; the first has written the elders and the groups they refer to, the second can write nothing. *)
Definition empty : dest := mkDest MomentsProps.mtables [] [] [].
Definition fresh : list event := trace (fst (mrun SError empty)).
Definition mid : dest := fold_left after (firstn 2 fresh) empty.
Example C134_references_case : exists fk x, let done := firstn 2 fresh in
  meanwhile odflt (settled_run odflt) settled_others empty [(done, skipn 2 fresh); ([], fresh)] mid /\
  good_start menv (mcfg SError) (mout SError) mplan PlannerProps.cfgA (mkWorld empty []) /\ done ++ skipn 2 fresh = trace (fst (mrun SError empty)) /\
  (exists tb, table_of MomentsProps.mtables ("c", "elders") tb /\ In fk (tb_fks tb)) /\
  carried_over menv (mcfg SError) (mout SError) mplan PlannerProps.cfgA false (mkWorld empty []) MomentsProps.mtables ("c", "elders") fk /\
  (forall td, strategy_of (mout SError) mplan td = SError) /\ In x (written done ("c", "elders")) /\ rget x "gid" = VInt 100 /\
  hd_error fresh <> None /\ exec odflt mid (hd (EvCreate []) fresh) = None.
Proof.
  exists (mkFK ["gid"] ("b", "grp") ["gid"]), [("pid", VInt 10); ("gid", VInt 100)]. cbv zeta.
  assert (Hg := MomentsProps.m_good SError (mkWorld empty []) eq_refl eq_refl).
  assert (Hset : settled_run odflt empty fresh).
  { unfold fresh. destruct (mrun SError empty) as [w' r] eqn:Er. eapply settled with (E := menv); [reflexivity|exact (proj1 (proj2 (proj2 Hg)))|discriminate|exact Er]. }
  split.
  { assert (H1 : meanwhile odflt (settled_run odflt) settled_others empty [([], fresh)] empty) by (apply (run_begins _ _ _ _ [] _ _); [constructor|exact Hset]).
    apply (fun H => run_begins _ _ _ _ _ _ _ H Hset) in H1. cbn [app] in H1. rewrite <- (firstn_skipn 2 fresh) in H1 at 1. eapply (continue_all _ _ _ _ _ [] [([], fresh)]) in H1; [exact H1|]. replays. }
  split; [exact Hg|]. split; [apply firstn_skipn|]. set (tb := mkTable ("c", "elders") ["pid"; "gid"] ["pid"] [mkFK ["gid"] ("b", "grp") ["gid"]] []).
  assert (Htb : table_of MomentsProps.mtables ("c", "elders") tb) by (split; [vm_compute; tauto|reflexivity]).
  split; [exists tb; split; [exact Htb|left; reflexivity]|]. split.
  { apply (proj1 (MomentsProps.m_respected SError false (mkWorld empty []) ("c", "elders") tb _ Htb (or_introl eq_refl))).
    exists "a.parent", ("a", "parent"). split; [vm_compute; tauto|]. split; apply parse_named; reflexivity. }
  split; [intros td; unfold strategy_of; destruct (in_dec _ _ _); reflexivity|]. vm_compute. repeat split; try tauto; discriminate.
Qed.
(** When rows with existing keys are skipped, both runs complete; an order of the second run refers to a user of the first. *)
Theorem C134_skipped_refuted : exists (E : env unit) cfg c p d0 l d w' fk x xd,
  meanwhile (en_dflt E) (settled_run (en_dflt E)) settled_others d0 l d /\ In (trace w', []) l /\
  run_ok E cfg c p d0 /\ sample E cfg p false false tt (mkWorld d0 []) = (w', Ok tt) /\ oc_merge c = true /\ oc_strategy c = SSkip /\ p_passthrough p = [] /\
  source_fk E cfg p ("s", "orders") fk /\ fk_dst fk = ("s", "users") /\
  In x (written (trace w') ("s", "orders")) /\ there_as_given d ("s", "orders") x /\
  In xd (written (trace w') ("s", "users")) /\ refers (en_cmp E) fk x xd /\ ~ there_as_given d ("s", "users") xd.
Proof.
  exists oenv2, (ocfg (merging SSkip)), (merging SSkip), (oplan two), (w_dest OutputProps.old_dest).
  exists [(trace (fst (orun1 SSkip)), []); (trace (fst (orun2 SSkip)), [])], (both SSkip), (fst (orun2 SSkip)), (mkFK ["uid"] ("s", "users") ["id"]), (OutputProps.order 19 9), (OutputProps.user 9 "c").
  split; [|split; [right; left; reflexivity|split; [apply ok2|]]].
  - assert (H1 : meanwhile odflt (settled_run odflt) settled_others (w_dest OutputProps.old_dest) [([], trace (fst (orun1 SSkip)))] (w_dest OutputProps.old_dest))
      by (apply (run_begins _ _ _ _ [] _ _); [constructor|apply settled1; discriminate]).
    apply run_begins with (todo := trace (fst (orun2 SSkip))) in H1; [|apply settled2; discriminate]. cbn [app] in H1.
    rewrite <- (app_nil_r (trace (fst (orun1 SSkip)))) in H1. eapply (continue_all _ _ _ _ _ [] [([], trace (fst (orun2 SSkip)))]) in H1; [|replays].
    rewrite <- (app_nil_r (trace (fst (orun2 SSkip)))) in H1. eapply (continue_all _ _ _ _ _ [([] ++ trace (fst (orun1 SSkip)), [])] []) in H1; [exact H1|replays].
  - split; [vm_compute; reflexivity|]. split; [reflexivity|]. split; [reflexivity|]. split; [reflexivity|].
    split; [eexists; eexists; split; [vm_compute; reflexivity|split; [vm_compute; reflexivity|left; reflexivity]]|]. split; [reflexivity|].
    split; [vm_compute; tauto|]. split.
    { exists (OutputProps.order 19 9). split; [vm_compute; tauto|reflexivity]. }
    split; [vm_compute; tauto|]. split; [repeat constructor; discriminate|].
    intros (r & Hr & Hg). assert (Ei := Hg "id" (or_introl eq_refl)). assert (En := Hg "name" (or_intror (or_introl eq_refl))).
    vm_compute in Hr. repeat (destruct Hr as [<-|Hr]; [vm_compute in Ei, En; congruence|]). exact Hr.
Qed.
Print Assumptions C134_skipped_refuted.
