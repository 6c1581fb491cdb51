(** Properties C104 and C105: foreign keys between two statements of a run, and destinations that check them. *)
From Coq Require Import Lia.
From Verif Require Import Model.Base Model.Value Model.Names Model.PlanModel Model.SqlAlgebra Model.Metadata Model.Planner Model.Filters Model.Multiply Model.Materialize Model.Dest Model.Output Model.Sampler.
From Verif Require Import Spec.GraphSpec Spec.SchemaSpec Spec.SqlSem Spec.PlannerSpec Spec.FilterSpec Spec.OutputSpec Spec.SampleSpec Spec.RunSpec Spec.WholeSpec Spec.CompactWholeSpec Spec.CopiesSpec Spec.MomentsSpec.
From Verif Require Import Proofs.BaseFacts Proofs.NameFacts Proofs.MetadataMain Proofs.PlannerExamples Proofs.SampleFinal Proofs.SampleExamples Proofs.OutputExamples Proofs.WholeCopies Proofs.Moments.
From Verif Require Props.PlannerProps Props.WholeRunProps Props.CompactWholeProps Props.CopiesProps.
From Verif Require Import Model.Dest.
Open Scope list_scope.
Open Scope string_scope.

Section Statements.
Context {G : Type}.
Variables (E : env G) (cfg : sampler_config) (c : db_config) (p : plan).

(** C104: [r] is any outcome of the run; [d] is any state that it goes through. *)
Theorem C104_every_moment : forall pcfg truncate create g w w' r n tb fk, good_start E cfg c p pcfg w ->
  sample E cfg p truncate create g w = (w', r) ->
  table_of (ds_tables (w_dest w')) n tb -> In fk (tb_fks tb) -> respected E cfg c p pcfg truncate w (ds_tables (w_dest w')) n fk ->
  fk_holds (en_cmp E) fk (rows_of (w_dest w) n) (rows_of (w_dest w) (fk_dst fk)) ->
  forall d, moment E w w' d -> fk_holds (en_cmp E) fk (rows_of d n) (rows_of d (fk_dst fk)).
Proof. exact (@moment_fk G E cfg c p). Qed.

(** C105 *)
Theorem C105_enforced_keys : forall pcfg truncate create g w w' r, enforces_keys E -> good_start E cfg c p pcfg w ->
  sample (unchecked E) cfg p truncate create g w = (w', r) ->
  (forall n tb fk, table_of (ds_tables (w_dest w')) n tb -> In fk (tb_fks tb) ->
     respected E cfg c p pcfg truncate w (ds_tables (w_dest w')) n fk /\
     fk_holds (en_cmp E) fk (rows_of (w_dest w) n) (rows_of (w_dest w) (fk_dst fk))) ->
  sample E cfg p truncate create g w = (w', r).
Proof. exact (@enforcing_same G E cfg c p). Qed.
End Statements.
Print Assumptions C104_every_moment.
Print Assumptions C105_enforced_keys.

(** ** Cases: the runs of Props/CopiesProps.v on a destination that checks its foreign keys, and has a table of its own *)
Section Checks.
Variable cmpf : cmpop -> value -> value -> bool.
Definition refersb (fk : fkey) (r r' : row) : bool :=
  Nat.eqb (length (fk_cols fk)) (length (fk_dst_cols fk)) &&
  forallb (fun ab => negb (eqb (rget r (fst ab)) VNull) && negb (eqb (rget r' (snd ab)) VNull) && cmpf CEq (rget r (fst ab)) (rget r' (snd ab)))
          (combine (fk_cols fk) (fk_dst_cols fk)).
Definition fk_holdsb (fk : fkey) (l l' : list row) : bool :=
  forallb (fun r => existsb (fun k => eqb (rget r k) VNull) (fk_cols fk) || existsb (refersb fk r) l') l.
Definition keys_holdb (d : dest) : bool :=
  forallb (fun tb => forallb (fun fk => fk_holdsb fk (rows_of d (tb_name tb)) (rows_of d (fk_dst fk))) (tb_fks tb)) (ds_tables d).
Lemma refersb_true fk r r' : refersb fk r r' = true <-> refers cmpf fk r r'.
Proof.
  unfold refersb, refers. generalize (fk_cols fk) (fk_dst_cols fk). intros l. induction l as [|a l IH]; intros [|b l']; cbn; split; intros H; try discriminate H; try (inversion H; fail); try constructor.
  - apply andb_prop in H as [H1 H2]. apply andb_prop in H2 as [H2 _]. apply andb_prop in H2 as [H2 H3]. apply andb_prop in H2 as [H2 H4].
    split; [intros F; rewrite F in H2; discriminate H2|]. split; [intros F; rewrite F in H4; discriminate H4|exact H3].
  - apply IH. apply andb_prop in H as [H1 H2]. apply andb_prop in H2 as [_ H2]. rewrite H1. exact H2.
  - inversion H as [|? ? ? ? (H1 & H2 & H3) H4]; subst. apply IH in H4. apply andb_prop in H4 as [H4 H5]. rewrite H4, H5, H3.
    apply (proj2 (eqb_false _ _)) in H1. apply (proj2 (eqb_false _ _)) in H2. rewrite H1, H2. reflexivity.
Qed.
Lemma fk_holdsb_true fk l l' : fk_holdsb fk l l' = true <-> fk_holds cmpf fk l l'.
Proof.
  unfold fk_holdsb, fk_holds. rewrite forallb_forall. split; intros H r Hr.
  - intros Hn. specialize (H r Hr). apply orb_prop in H as [H|H].
    + apply existsb_exists in H as (k & Hk & Hv). apply (proj1 (eqb_true _ _)) in Hv. destruct (Hn k Hk Hv).
    + apply existsb_exists in H as (r' & Hr' & Hv). exists r'. split; [exact Hr'|apply refersb_true; exact Hv].
  - apply orb_true_iff. destruct (existsb (fun k => eqb (rget r k) VNull) (fk_cols fk)) eqn:Ex; [left; reflexivity|right].
    destruct (H r Hr) as (r' & Hr' & Hv).
    + intros k Hk F. assert (Ht : existsb (fun k => eqb (rget r k) VNull) (fk_cols fk) = true)
        by (apply existsb_exists; exists k; split; [exact Hk|rewrite F; reflexivity]). congruence.
    + apply existsb_exists. exists r'. split; [exact Hr'|apply refersb_true; exact Hv].
Qed.
End Checks.

(** The destination refuses a statement after which a foreign key does not hold. *)
Definition checking (d : dest) (e : event) : bool := match exec odflt d e with Some d' => keys_holdb PlannerProps.xcmp d' | None => true end.
Definition menv : env unit :=
  Sampler.mkEnv ofilters PlannerProps.xfnm osub osets osets PlannerProps.xdb PlannerProps.xsource (fun _ _ => true) (fun _ => false)
    PlannerProps.xcmp PlannerProps.xtext xraw xraw_cols xz xrank true odflt checking (fun _ _ => false) (fun _ => None) (fun _ _ => true) none 1.
Notation mout s := (CopiesProps.kout CompactWholeProps.vremap s false).
Notation mcfg s := (CopiesProps.kcfg (mout s) 1 false).
Notation mplan := WholeRunProps.wplan.
Definition audit : table := mkTable ("z", "audit") ["aid"; "who"] ["aid"] [mkFK ["who"] ("b", "grp") ["gid"]] [].
Definition mtables : list table := WholeRunProps.wtables ++ [audit].
Definition mbefore : world := odest mtables
  [(("a", "child"), [ [("pid", VInt 10); ("id", VInt 1); ("note", VStr "old")] ]); (("c", "elders"), [ [("pid", VInt 10); ("gid", VInt 100)] ]);
   (("b", "grp"), [ [("gid", VInt 100)]; [("gid", VInt 200)] ]); (("z", "audit"), [ [("aid", VInt 1); ("who", VInt 200)] ])] [].
Definition mafter (s : strategy) (truncate : bool) : world * res out_exn unit := sample menv (mcfg s) mplan truncate false tt mbefore.
Definition statement (e : event) : string * tname :=
  match e with EvDelete n => ("delete", n) | EvInsert n _ _ => ("insert", n) | _ => ("", ("", "")) end.

(** The run empties the referring tables first, and fills them last. *)
Example C104_case : snd (mafter SError true) = Ok tt /\
  map statement (trace (fst (mafter SError true))) =
  [("delete", ("a", "child")); ("delete", ("z", "audit")); ("delete", ("c", "elders")); ("delete", ("b", "grp"));
   ("insert", ("b", "grp")); ("insert", ("c", "elders")); ("insert", ("a", "child"))] /\
  snd (mafter SSkip false) = Ok tt /\
  map statement (trace (fst (mafter SSkip false))) = [("insert", ("b", "grp")); ("insert", ("c", "elders")); ("insert", ("a", "child"))] /\
  rows_of (w_dest (fst (mafter SSkip false))) ("z", "audit") = [ [("aid", VInt 1); ("who", VInt 200)] ].
Proof. vm_compute. repeat split. Qed.
(** The other order is refused. *)
Example C105_order_matters :
  checking (w_dest mbefore) (EvDelete ("b", "grp")) = false /\ checking (w_dest mbefore) (EvDelete ("c", "elders")) = false /\
  checking (mkDest mtables [] [] []) (EvInsert ("a", "child") Fail [ [("id", VInt 1); ("pid", VInt 10)] ]) = false.
Proof. vm_compute. repeat split. Qed.

Lemma m_enforces : enforces_keys menv.
Proof.
  intros d e H. cbn [menv en_accepts en_dflt] in *. unfold checking in H. destruct (exec odflt d e) as [d'|]; [|discriminate H]. exists d'. split; [reflexivity|].
  intros Hk. apply not_true_iff_false in H. apply H. apply forallb_forall. intros tb Htb. apply forallb_forall. intros fk Hfk.
  apply fk_holdsb_true. apply (Hk (tb_name tb) tb fk); [split; [exact Htb|reflexivity]|exact Hfk].
Qed.
Lemma m_good s w : ds_tables (w_dest w) = mtables -> trace w = [] -> good_start menv (mcfg s) (mout s) mplan PlannerProps.cfgA w.
Proof.
  intros Hw Hnil.
  destruct WholeRunProps.C87_hypotheses as (_ & Hp & _ & Hok & _ & _ & _ & Hsc & Hall & _).
  split; [exact (proj1 (CompactWholeProps.yenv_ok PlannerProps.xdb PlannerProps.xsource))|]. split; [exact Hp|]. split.
  { constructor; [reflexivity|exact (ro_source Hok)|rewrite Hw; apply db_okb_true; vm_compute; reflexivity|exact (ro_order Hok)|exact (ro_plain Hok)|].
    exact (CopiesProps.x_columns s false 1). }
  split; [exact Hnil|]. split; [apply PlannerProps.xcmp_sym|]. split; [exact CopiesProps.xcmp_arith|]. split; [exact Hsc|exact Hall].
Qed.
Lemma m_fks n tb fk : table_of mtables n tb -> In fk (tb_fks tb) ->
  n = ("a", "child") /\ fk = mkFK ["pid"] ("c", "elders") ["pid"] \/ n = ("c", "elders") /\ fk = mkFK ["gid"] ("b", "grp") ["gid"] \/
  n = ("z", "audit") /\ fk = mkFK ["who"] ("b", "grp") ["gid"].
Proof.
  intros [Ht Hn] Hf. destruct Ht as [<-|[<-|[<-|[<-|[]]]]]; cbn in Hn, Hf; try contradiction; subst n; destruct Hf as [<-|[]]; tauto.
Qed.
(** Where the planned tables go. *)
Lemma m_lands s t n : In t (dkeys (p_queries mplan)) -> lands (en_resub menv) (oc_remap (mout s)) t n ->
  In (t, n) [("b.codes", ("b", "codes")); ("a.parent", ("c", "elders")); ("b.grp", ("b", "grp")); ("a.child", ("a", "child"))].
Proof.
  intros Ht (n0 & Hn & Hg). vm_compute in Ht. destruct Ht as [<-|[<-|[<-|[<-|[]]]]]; apply parse_named in Hn; vm_compute in Hn; injection Hn as <-;
    apply parse_named in Hg; vm_compute in Hg; injection Hg as <-; cbn; tauto.
Qed.
Ltac copied := split; [vm_compute; tauto|]; split; [apply parse_named; reflexivity|]; split; [apply parse_named; reflexivity|];
  split; [split; [cbn; tauto|reflexivity]|intros k _; split; [intros f []|reflexivity]].
Lemma m_respected s truncate w n tb fk : table_of mtables n tb -> In fk (tb_fks tb) -> respected menv (mcfg s) (mout s) mplan PlannerProps.cfgA truncate w mtables n fk.
Proof.
  intros Ht Hf. destruct (m_fks _ _ _ Ht Hf) as [[-> ->]|[[-> ->]|[-> ->]]]; split; intros Hn.
  - exists CopiesProps.xfk, "a.child", "a.parent", ("a", "child"), (mkTable ("a", "child") ["pid"; "id"; "note"] ["id"] [mkFK ["pid"] ("c", "elders") ["pid"]] []),
      (mkTable ("c", "elders") ["pid"; "gid"] ["pid"] [mkFK ["gid"] ("b", "grp") ["gid"]] []).
    split; [apply PlannerProps.x_fk1|]. split; [reflexivity|]. split; [reflexivity|]. split; [copied|]. split; [copied|].
    split; [intros _; reflexivity|]. split; [right; split; [intros k Hk; exact Hk|reflexivity]|]. split; [left; repeat split|].
    intros a b _. split; [apply unmultiplied; cbn; lia|apply unmerged; reflexivity].
  - destruct Hn. exists "a.child", ("a", "child"). split; [vm_compute; tauto|]. split; apply parse_named; reflexivity.
  - exists (mkFK ["gid"] ("b", "grp") ["gid"]), "a.parent", "b.grp", ("a", "parent"), (mkTable ("c", "elders") ["pid"; "gid"] ["pid"] [mkFK ["gid"] ("b", "grp") ["gid"]] []),
      (mkTable ("b", "grp") ["gid"] ["gid"] [] []).
    split; [apply PlannerProps.x_fk2|]. split; [reflexivity|]. split; [reflexivity|]. split; [copied|]. split; [copied|].
    split; [intros _; reflexivity|]. split; [right; split; [intros k Hk; exact Hk|reflexivity]|]. split; [left; repeat split|].
    intros a b _. split; [apply unmultiplied; cbn; lia|apply unmerged; reflexivity].
  - destruct Hn. exists "a.parent", ("a", "parent"). split; [vm_compute; tauto|]. split; apply parse_named; reflexivity.
  - destruct Hn as (t & n0 & H1 & H2 & H3). exfalso.
    destruct (m_lands s t ("z", "audit") H1 (ex_intro _ n0 (conj H2 H3))) as [Eq|[Eq|[Eq|[Eq|[]]]]]; inversion Eq.
  - intros td tbd _ _ [Hd Hnd]. right. destruct Hd as [<-|[<-|[<-|[<-|[]]]]]; try discriminate Hnd. split; [intros k Hk; exact Hk|reflexivity].
Qed.
Lemma m_before n tb fk : table_of mtables n tb -> In fk (tb_fks tb) -> fk_holds (en_cmp menv) fk (rows_of (w_dest mbefore) n) (rows_of (w_dest mbefore) (fk_dst fk)).
Proof.
  intros Ht Hf. apply fk_holdsb_true. destruct (m_fks _ _ _ Ht Hf) as [[-> ->]|[[-> ->]|[-> ->]]]; vm_compute; reflexivity.
Qed.
Lemma m_tables s truncate : s = SError /\ truncate = true \/ s = SSkip /\ truncate = false -> ds_tables (w_dest (fst (mafter s truncate))) = mtables.
Proof. intros [[-> ->]|[-> ->]]; vm_compute; reflexivity. Qed.
(** The hypotheses of both properties hold of these runs, for every foreign key of the destination. *)
Example C104_hypotheses s truncate : s = SError /\ truncate = true \/ s = SSkip /\ truncate = false ->
  good_start menv (mcfg s) (mout s) mplan PlannerProps.cfgA mbefore /\
  forall n tb fk, table_of (ds_tables (w_dest (fst (mafter s truncate)))) n tb -> In fk (tb_fks tb) ->
    respected menv (mcfg s) (mout s) mplan PlannerProps.cfgA truncate mbefore (ds_tables (w_dest (fst (mafter s truncate)))) n fk /\
    fk_holds (en_cmp menv) fk (rows_of (w_dest mbefore) n) (rows_of (w_dest mbefore) (fk_dst fk)).
Proof.
  intros Hs. rewrite (m_tables s truncate Hs). split; [apply m_good; reflexivity|]. intros n tb fk Ht Hf. split; [exact (m_respected s truncate mbefore n tb fk Ht Hf)|exact (m_before n tb fk Ht Hf)].
Qed.
Example C105_hypotheses : enforces_keys menv /\
  sample (unchecked menv) (mcfg SError) mplan true false tt mbefore = (fst (mafter SError true), Ok tt) /\
  sample (unchecked menv) (mcfg SSkip) mplan false false tt mbefore = (fst (mafter SSkip false), Ok tt).
Proof. split; [exact m_enforces|]. vm_compute. split; reflexivity. Qed.
(** A state in the middle of the run: the parents are there, the children are not yet. *)
Example C104_moment : let d := mkDest mtables [(("a", "child"), []); (("c", "elders"), [ [("pid", VInt 10); ("gid", VInt 100)] ]); (("b", "grp"), [ [("gid", VInt 100)] ]); (("z", "audit"), [])] [] [] in
  moment menv mbefore (fst (mafter SError true)) d.
Proof.
  exists (firstn 6 (trace (fst (mafter SError true)))). split; [exists (skipn 6 (trace (fst (mafter SError true)))); symmetry; apply firstn_skipn|].
  vm_compute. repeat (econstructor; [vm_compute; reflexivity|]). constructor.
Qed.
