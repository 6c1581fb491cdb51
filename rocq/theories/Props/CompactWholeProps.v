(** Properties C96 and C97: planning and sampling with renumbered columns, seen from the destination. *)
From Coq Require Import Lia.
From Verif Require Import Model.Base Model.Value Model.Names Model.PlanModel Model.SqlAlgebra Model.Metadata Model.Planner Model.Filters Model.Multiply Model.Materialize Model.Dest Model.Output Model.Sampler.
From Verif Require Import Spec.GraphSpec Spec.SchemaSpec Spec.SqlSem Spec.PlannerSpec Spec.FilterSpec Spec.OutputSpec Spec.SampleSpec Spec.RunSpec Spec.WholeSpec Spec.CompactWholeSpec.
From Verif Require Import Proofs.BaseFacts Proofs.NameFacts Proofs.MetadataMain Proofs.PlannerExamples Proofs.SampleFinal Proofs.SampleExamples Proofs.OutputExamples Proofs.WholeRun Proofs.WholeFk Proofs.WholeCompact.
From Verif Require Props.PlannerProps Props.WholeProps Props.WholeRunProps.
From Verif Require Import Model.Dest.
Open Scope string_scope.
Open Scope list_scope.

Section Props.
Context {G : Type}.
Variables (E : env G) (cfg : sampler_config) (c : db_config) (p : plan).
Notation rows w n := (rows_of (w_dest w) n).

(** C96, where it holds: the columns of the foreign key and those they refer to are renumbered in step.  Missing: the other
    foreign keys, see the refutations below. *)
Theorem C96_renumbered_consistent_partial : forall pcfg ms compact truncate w w',
  renumbering_run E cfg c p pcfg ms compact truncate w w' -> forall fk n n' nd',
  arrives E cfg c p truncate w w' n n' (fk_cols fk) -> arrives E cfg c p truncate w w' (fk_dst fk) nd' (fk_dst_cols fk) ->
  considered (en_fnm E) pcfg (en_source_schema E) n fk ->
  (forall x dx, In (x, dx) (combine (fk_cols fk) (fk_dst_cols fk)) -> in_step ms compact n x (fk_dst fk) dx) ->
  fk_holds (en_cmp E) fk (rows w' n') (rows w' nd').
Proof. intros pcfg ms compact truncate w w' H1 fk n n' nd' H2 H3 H4 H5. exact (renumbered_packed H1 H2 H3 H4 H5). Qed.

(** C97, where it holds: no reference is lost to the renumbered column that is followed.  [selected] are the rows selected by the
    plan's queries.  Missing: a column that refers to several renumbered columns follows the last one, see the refutation below. *)
Theorem C97_references_kept_partial : forall pcfg ms compact truncate w w',
  renumbering_run E cfg c p pcfg ms compact truncate w w' -> forall fk n n',
  arrives E cfg c p truncate w w' n n' (fk_cols fk) -> planned p (fk_dst fk) ->
  considered (en_fnm E) pcfg (en_source_schema E) n fk ->
  exists selected, (forall s q m, In (s, q) (p_queries p) -> named s m ->
      exists ph, selected m = query_result (en_cmp E) (en_text E) (en_raw E) (en_source E) selected (en_rnd E ph m) q) /\
    Forall2 (fun r row => (forall k, In k (fk_cols fk) -> rget r k <> VNull) ->
      forall x dx, In (x, dx) (combine (fk_cols fk) (fk_dst_cols fk)) -> decides ms compact n x (fk_dst fk) dx -> ~ compacted compact n x -> rget row x <> VNull)
      (selected n) (rows w' n').
Proof. intros pcfg ms compact truncate w w' H1 fk n n' H2 H3 H4. exact (kept_packed H1 H2 H3 H4). Qed.

(** The assumption of [run_ok] that is about the plan holds of the planner's plans. *)
Theorem C96_columns : forall pcfg ms compact, env_ok E -> planned_by E p pcfg -> renumbers E cfg p ms compact -> distinct_columns E cfg p.
Proof. intros pcfg ms compact H1 H2 H3. exact (renumbered_distinct H1 H2 H3). Qed.
End Props.
Print Assumptions C96_renumbered_consistent_partial.
Print Assumptions C97_references_kept_partial.
Print Assumptions C96_columns.

(** ** Cases *)
Definition yenv (db : list table) (source : tname -> list row) : env unit :=
  Sampler.mkEnv ofilters PlannerProps.xfnm osub osets osets db source (fun _ _ => true) (fun _ => false)
    PlannerProps.xcmp PlannerProps.xtext xraw xraw_cols xz xrank true odflt yes (fun _ _ => false) (fun _ => None) (fun _ _ => true) none 1.
Definition yout (remap : dict string string) : db_config := mkDbConfig SQLite remap SError false.
(** Primary keys are renumbered from 1. *)
Definition ycfg (remap : dict string string) : sampler_config :=
  mkSampler (ToDatabase (yout remap)) [] (mkMult 1 [] [] []) InferNone (mkCompact true false 1 []).

Lemma yenv_ok db source : env_ok (yenv db source) /\ numbers_rows (yenv db source).
Proof.
  assert (Hr : forall ph n ks, Permutation (xrank ph n ks) (seq 1 (length ks))) by (intros ph n ks; exact (proj1 (rank_by_ok xkey ks))).
  split; [|exact Hr]. split; [intros l; apply Permutation_refl|]. split; [exact xz_ok|].
  intros ph n ks. pose proof (Permutation_length (Hr ph n ks)) as H. rewrite seq_length in H. exact H.
Qed.
Lemma xcmp_laws : eq_symmetric PlannerProps.xcmp /\ eq_transitive PlannerProps.xcmp /\ (forall k, PlannerProps.xcmp CEq (VInt k) (VInt k) = true).
Proof.
  split; [exact PlannerProps.xcmp_sym|]. split; [|intros k; cbn; apply eqb_refl].
  intros a b c H1 H2. apply (proj1 (eqb_true _ _)) in H1. apply (proj1 (eqb_true _ _)) in H2. apply (proj2 (eqb_true _ _)). congruence.
Qed.
(** No two rows have equal values in the column. *)
Definition uniqueb (c : string) (l : list row) : bool := eqb (nodup eq_dec (map (fun r => rget r c) l)) (map (fun r => rget r c) l).
Lemma uniqueb_true c l : uniqueb c l = true -> unique_in PlannerProps.xcmp c l.
Proof.
  intros H v i j r r' Hr Hr' (_ & _ & M1) (_ & _ & M2). apply (proj1 (eqb_true _ _)) in H. apply (proj1 (eqb_true _ _)) in M1. apply (proj1 (eqb_true _ _)) in M2.
  assert (Hn : NoDup (map (fun r => rget r c) l)) by (rewrite <- H; apply NoDup_nodup).
  apply (proj1 (NoDup_nth_error _) Hn); [rewrite map_length; apply nth_error_Some; idtac; rewrite Hr; discriminate|].
  rewrite (map_nth_error _ _ _ Hr), (map_nth_error _ _ _ Hr'). f_equal. rewrite <- M1. exact M2.
Qed.

(** *** A case of C96 and C97: the plan of Props/PlannerProps.v; parents are renumbered (10 becomes 1) and renamed *)
Definition ymeta (db : list table) (p : plan) : meta := match sampler_meta PlannerProps.xfnm db (p_queries p) InferNone with Ok m => m | Err _ => [] end.
Definition vremap : dict string string := [("a.parent", "c.elders")].
Definition vcompact : dict tname (list string) := [(("a", "child"), ["id"]); (("a", "parent"), ["pid"]); (("b", "grp"), ["gid"])].
Notation venv := (yenv PlannerProps.xdb PlannerProps.xsource).
Notation vplan := WholeRunProps.wplan.
Definition vafter : world * res out_exn unit := sample venv (ycfg vremap) vplan true false tt WholeRunProps.wbefore.
Example C96_case : snd vafter = Ok tt /\
  rows_of (w_dest (fst vafter)) ("a", "child") = [ [("pid", VInt 1); ("id", VInt 1); ("note", VNull)] ] /\
  rows_of (w_dest (fst vafter)) ("c", "elders") = [ [("pid", VInt 1); ("gid", VInt 1)] ] /\
  rows_of (w_dest (fst vafter)) ("b", "grp") = [ [("gid", VInt 1)] ].
Proof. vm_compute. repeat split. Qed.
Lemma v_renumbers : renumbers venv (ycfg vremap) vplan (ymeta PlannerProps.xdb vplan) vcompact.
Proof.
  split; [vm_compute; reflexivity|]. split; [vm_compute; reflexivity|]. split; [constructor|]. split; [intros s cs n t c []|].
  split; [intros s k _; apply eqb_true|]. split; [|intros Hf; cbn [yenv en_reopen] in Hf; discriminate Hf].
  intros n c (cs & Hin & Hc). destruct Hin as [Eq|[Eq|[Eq|[]]]]; inversion Eq; subst; destruct Hc as [<-|[]]; apply uniqueb_true; vm_compute; reflexivity.
Qed.
Example C96_hypotheses :
  renumbering_run venv (ycfg vremap) (yout vremap) vplan PlannerProps.cfgA (ymeta PlannerProps.xdb vplan) vcompact true WholeRunProps.wbefore (fst vafter) /\
  arrives venv (ycfg vremap) (yout vremap) vplan true WholeRunProps.wbefore (fst vafter) ("a", "child") ("a", "child") ["pid"] /\
  arrives venv (ycfg vremap) (yout vremap) vplan true WholeRunProps.wbefore (fst vafter) ("a", "parent") ("c", "elders") ["pid"] /\
  considered PlannerProps.xfnm PlannerProps.cfgA PlannerProps.xdb ("a", "child") (mkFK ["pid"] ("a", "parent") ["pid"]) /\
  in_step (ymeta PlannerProps.xdb vplan) vcompact ("a", "child") "pid" ("a", "parent") "pid".
Proof.
  destruct (yenv_ok PlannerProps.xdb PlannerProps.xsource) as [He Hn]. destruct WholeRunProps.C87_hypotheses as (_ & Hp & _ & Hok & Hnil & _ & _ & Hsc & Hall & Hcon & _).
  split; [|split; [|split; [|split]]].
  - split; [exact He|]. split; [exact Hn|]. split; [exact Hp|]. split; [exact v_renumbers|]. split.
    { constructor; [reflexivity|exact (ro_source Hok)|exact (ro_dest Hok)|exact (ro_order Hok)|exact (ro_plain Hok)|]. exact (C96_columns venv (ycfg vremap) vplan PlannerProps.cfgA _ _ He Hp v_renumbers). }
    split; [reflexivity|]. split; [split; [reflexivity|split; [reflexivity|cbn; lia]]|]. split; [apply xcmp_laws|]. split; [apply xcmp_laws|]. split; [apply xcmp_laws|].
    split; [exact Hsc|]. split; [exact Hall|]. exists false, tt, tt. vm_compute. reflexivity.
  - exists "a.child". split; [vm_compute; tauto|]. split; [apply parse_named; reflexivity|]. split; [apply parse_named; reflexivity|].
    split; [eexists; split; [vm_compute; left; reflexivity|reflexivity]|]. split; [left; reflexivity|]. intros k _. split; [intros f []|reflexivity].
  - exists "a.parent". split; [vm_compute; tauto|]. split; [apply parse_named; reflexivity|]. split; [apply parse_named; reflexivity|].
    split; [eexists; split; [vm_compute; right; left; reflexivity|reflexivity]|]. split; [left; reflexivity|]. intros k _. split; [intros f []|reflexivity].
  - exact Hcon.
  - right. left. split.
    + intros (cs & Hin & Hc). destruct Hin as [Eq|[Eq|[Eq|[]]]]; inversion Eq; subst; destruct Hc as [Eq'|[]]; discriminate Eq'.
    + eexists _, [], []. split; [vm_compute; left; reflexivity|]. split; [reflexivity|]. split; [exists ["pid"]; split; [right; left; reflexivity|left; reflexivity]|intros d dc []].
Qed.

(** ** Refutations of the full claim *)
(** *** A column that refers to a renumbered one, and is referred to itself: a.note.uid -> a.account.uid -> a.user.id.
    The uid of the account is renumbered with the user, that of the note is not. *)
Definition cdb : list table :=
  [ mkTable ("a", "note") ["id"; "uid"] ["id"] [mkFK ["uid"] ("a", "account") ["uid"]] [];
    mkTable ("a", "account") ["id"; "uid"] ["id"] [mkFK ["uid"] ("a", "user") ["id"]] [["uid"]];
    mkTable ("a", "user") ["id"] ["id"] [] [] ].
Definition csource (n : tname) : list row :=
  if eqb n ("a", "note") then [ [("id", VInt 9); ("uid", VInt 7)] ]
  else if eqb n ("a", "account") then [ [("id", VInt 5); ("uid", VInt 7)] ]
  else if eqb n ("a", "user") then [ [("id", VInt 7)] ] else [].
Definition ypcfg (extra : list extra_fk) : config := mkConfig [] ["a.note"; "a.user"] [("a.note", PlannerProps.tg_whole)] [] [] [] extra InferNone true.
Definition yplan (db : list table) (extra : list extra_fk) : plan :=
  match plan_db PlannerProps.idl PlannerProps.idl PlannerProps.xfnm (ypcfg extra) db with Ok p => p | Err _ => mkPlan [] [] end.
Definition ybefore (db : list table) : world := odest db [] [].
Definition yafter (db : list table) (source : tname -> list row) (extra : list extra_fk) : world * res out_exn unit :=
  sample (yenv db source) (ycfg []) (yplan db extra) true false tt (ybefore db).
Example C96_chain_case : snd (yafter cdb csource []) = Ok tt /\
  rows_of (w_dest (fst (yafter cdb csource []))) ("a", "note") = [ [("id", VInt 1); ("uid", VInt 7)] ] /\
  rows_of (w_dest (fst (yafter cdb csource []))) ("a", "account") = [ [("id", VInt 1); ("uid", VInt 1)] ] /\
  rows_of (w_dest (fst (yafter cdb csource []))) ("a", "user") = [ [("id", VInt 1)] ].
Proof. vm_compute. repeat split. Qed.
(** *** A foreign key of the planner's configuration ([extra_fks]), which the sampler does not know *)
Definition edb : list table := [ mkTable ("a", "note") ["id"; "uid"] ["id"] [] []; mkTable ("a", "user") ["id"] ["id"] [] [] ].
Definition eextra : list extra_fk := [mkExtra "a.note" ["uid"] "a.user" ["id"]].
Example C96_extra_case : snd (yafter edb csource eextra) = Ok tt /\
  rows_of (w_dest (fst (yafter edb csource eextra))) ("a", "note") = [ [("id", VInt 1); ("uid", VInt 7)] ] /\
  rows_of (w_dest (fst (yafter edb csource eextra))) ("a", "user") = [ [("id", VInt 1)] ].
Proof. vm_compute. repeat split. Qed.
Lemma y_run db source extra compact :
  db_okb db = true -> extras_valid (ypcfg extra) ->
  plan_db PlannerProps.idl PlannerProps.idl PlannerProps.xfnm (ypcfg extra) db = Ok (yplan db extra) -> source_ok id_column db source ->
  source_consistent PlannerProps.xfnm (ypcfg extra) db PlannerProps.xcmp source ->
  renumbers (yenv db source) (ycfg []) (yplan db extra) (ymeta db (yplan db extra)) compact ->
  snd (yafter db source extra) = Ok tt ->
  renumbering_run (yenv db source) (ycfg []) (yout []) (yplan db extra) (ypcfg extra) (ymeta db (yplan db extra)) compact true (ybefore db) (fst (yafter db source extra)).
Proof.
  intros Hdb Hx Hp Hs Hc Hr Ha. destruct (yenv_ok db source) as [He Hn]. apply db_okb_true in Hdb.
  assert (Hpl : planned_by (yenv db source) (yplan db extra) (ypcfg extra)).
  { split; [split; [repeat constructor; intros []|constructor]|]. split; [exact Hx|]. split; [exact Hdb|]. split.
    { intros n g t c (s & [Eq|[]] & _) _ [(x & Hin)|(x & Hin)]; injection Eq as <- <-; destruct Hin. }
    split; [exists PlannerProps.idl, PlannerProps.idl; split; [apply PlannerProps.idl_any|]; split; [apply PlannerProps.idl_any|exact Hp]|].
    split; [exact Hs|]. intros s _. apply eqb_refl. }
  split; [exact He|]. split; [exact Hn|]. split; [exact Hpl|]. split; [exact Hr|]. split.
  { constructor; [reflexivity|exact Hdb|exact Hdb|intros l; apply Permutation_refl|intros n s _; apply eqb_true|]. exact (C96_columns (yenv db source) (ycfg []) _ _ _ _ He Hpl Hr). }
  split; [reflexivity|]. split; [split; [reflexivity|split; [reflexivity|cbn; lia]]|]. split; [apply xcmp_laws|]. split; [apply xcmp_laws|]. split; [apply xcmp_laws|].
  split; [exact Hc|]. split; [intros n g (s & [Eq|[]] & _) _; injection Eq as <- <-; reflexivity|].
  exists false, tt, tt. unfold yafter in *. destruct (sample _ _ _ _ _ _ _) as [w' r]. cbn [fst snd] in *. rewrite Ha. reflexivity.
Qed.

Theorem C96_chain_refuted : exists (E : env unit) cfg c p pcfg ms compact truncate w w' fk n n' nd',
  renumbering_run E cfg c p pcfg ms compact truncate w w' /\
  arrives E cfg c p truncate w w' n n' (fk_cols fk) /\ arrives E cfg c p truncate w w' (fk_dst fk) nd' (fk_dst_cols fk) /\
  considered (en_fnm E) pcfg (en_source_schema E) n fk /\
  (exists t, table_of (en_source_schema E) n t /\ In fk (tb_fks t)) /\
  ~ fk_holds (en_cmp E) fk (rows_of (w_dest w') n') (rows_of (w_dest w') nd').
Proof.
  exists (yenv cdb csource), (ycfg []), (yout []), (yplan cdb []), (ypcfg []), (ymeta cdb (yplan cdb [])), [(("a", "note"), ["id"]); (("a", "account"), ["id"]); (("a", "user"), ["id"])],
    true, (ybefore cdb), (fst (yafter cdb csource [])), (mkFK ["uid"] ("a", "account") ["uid"]), ("a", "note"), ("a", "note"), ("a", "account").
  split; [|split; [|split; [|split; [|split]]]].
  - apply y_run; [vm_compute; reflexivity|intros x []|vm_compute; reflexivity| | | |vm_compute; reflexivity].
    + intros t [<-|[<-|[<-|[]]]]; (split; [nd|]); (split; [vm_compute; intuition discriminate|]); intros _; nd.
    + intros n fk (_ & [[[(t & [Ht Hn] & Hf)|[C _]] _]|(x & [] & _)]); [|exfalso; apply C; reflexivity].
      destruct Ht as [<-|[<-|[<-|[]]]]; cbn in Hn, Hf; try contradiction; destruct Hf as [<-|[]]; subst n; intros r Hr _; vm_compute in Hr; destruct Hr as [<-|[]].
      * exists [("id", VInt 5); ("uid", VInt 7)]. split; [left; reflexivity|]. constructor; [vm_compute; repeat split; discriminate|constructor].
      * exists [("id", VInt 7)]. split; [left; reflexivity|]. constructor; [vm_compute; repeat split; discriminate|constructor].
    + split; [vm_compute; reflexivity|]. split; [vm_compute; reflexivity|]. split; [constructor|]. split; [intros s cs n t c []|].
      split; [intros s k _; apply eqb_true|]. split; [|intros Hf; cbn [yenv en_reopen] in Hf; discriminate Hf].
      intros n c (cs & Hin & Hc). destruct Hin as [Eq|[Eq|[Eq|[]]]]; inversion Eq; subst; destruct Hc as [<-|[]]; apply uniqueb_true; vm_compute; reflexivity.
  - exists "a.note". split; [vm_compute; tauto|]. split; [apply parse_named; reflexivity|]. split; [apply parse_named; reflexivity|].
    split; [eexists; split; [vm_compute; left; reflexivity|reflexivity]|]. split; [left; reflexivity|]. intros k _. split; [intros f []|reflexivity].
  - exists "a.account". split; [vm_compute; tauto|]. split; [apply parse_named; reflexivity|]. split; [apply parse_named; reflexivity|].
    split; [eexists; split; [vm_compute; right; left; reflexivity|reflexivity]|]. split; [left; reflexivity|]. intros k _. split; [intros f []|reflexivity].
  - apply considered_by with (t := mkTable ("a", "note") ["id"; "uid"] ["id"] [mkFK ["uid"] ("a", "account") ["uid"]] []); [|left; reflexivity|reflexivity|left; reflexivity|reflexivity].
    eapply (@chosen_by PlannerProps.xfnm (ypcfg []) cdb _ "a.note" "a.note"); [left; reflexivity|reflexivity|reflexivity|left; reflexivity|reflexivity].
  - eexists. split; [split; [left; reflexivity|reflexivity]|left; reflexivity].
  - destruct C96_chain_case as (_ & E1 & E2 & _). rewrite E1, E2. intros H. destruct (H _ (or_introl eq_refl)) as (r' & Hr & Hf).
    + intros c [<-|[]]. discriminate.
    + destruct Hr as [<-|[]]. inversion Hf as [|? ? ? ? (_ & _ & Hx)]; subst. vm_compute in Hx. discriminate Hx.
Qed.
Theorem C96_extra_refuted : exists (E : env unit) cfg c p pcfg ms compact truncate w w' fk n n' nd' x,
  renumbering_run E cfg c p pcfg ms compact truncate w w' /\
  arrives E cfg c p truncate w w' n n' (fk_cols fk) /\ arrives E cfg c p truncate w w' (fk_dst fk) nd' (fk_dst_cols fk) /\
  considered (en_fnm E) pcfg (en_source_schema E) n fk /\
  In x (c_extra_fks pcfg) /\ extra_describes (en_fnm E) pcfg (en_source_schema E) n x fk /\
  ~ fk_holds (en_cmp E) fk (rows_of (w_dest w') n') (rows_of (w_dest w') nd').
Proof.
  exists (yenv edb csource), (ycfg []), (yout []), (yplan edb eextra), (ypcfg eextra), (ymeta edb (yplan edb eextra)), [(("a", "note"), ["id"]); (("a", "user"), ["id"])],
    true, (ybefore edb), (fst (yafter edb csource eextra)), (mkFK ["uid"] ("a", "user") ["id"]), ("a", "note"), ("a", "note"), ("a", "user"), (mkExtra "a.note" ["uid"] "a.user" ["id"]).
  assert (Hx : extra_describes PlannerProps.xfnm (ypcfg eextra) edb ("a", "note") (mkExtra "a.note" ["uid"] "a.user" ["id"]) (mkFK ["uid"] ("a", "user") ["id"])).
  { split; [apply parse_named; reflexivity|]. split; [apply parse_named; reflexivity|]. split; [reflexivity|]. split; [reflexivity|]. split.
    { eapply (@chosen_by PlannerProps.xfnm (ypcfg eextra) edb _ "a.user" "a.user"); [right; left; reflexivity|reflexivity|reflexivity|right; left; reflexivity|reflexivity]. }
    split; [exists (mkTable ("a", "note") ["id"; "uid"] ["id"] [] [])|exists (mkTable ("a", "user") ["id"] ["id"] [] [])]; (split; [split; [cbn; tauto|reflexivity]|intros y Hy; cbn in *; tauto]). }
  assert (Hc : considered PlannerProps.xfnm (ypcfg eextra) edb ("a", "note") (mkFK ["uid"] ("a", "user") ["id"])).
  { split; [|right; eexists; split; [left; reflexivity|exact Hx]].
    eapply (@chosen_by PlannerProps.xfnm (ypcfg eextra) edb _ "a.note" "a.note"); [left; reflexivity|reflexivity|reflexivity|left; reflexivity|reflexivity]. }
  split; [|split; [|split; [|split; [exact Hc|split; [left; reflexivity|split; [exact Hx|]]]]]].
  - apply y_run; [vm_compute; reflexivity|intros x [<-|[]]; split; [discriminate|reflexivity]|vm_compute; reflexivity| | | |vm_compute; reflexivity].
    + intros t [<-|[<-|[]]]; (split; [nd|]); (split; [vm_compute; intuition discriminate|]); intros _; nd.
    + intros n fk (_ & [[[(t & [Ht Hn] & Hf)|[C _]] _]|(x & [<-|[]] & Hd)]); [|exfalso; apply C; reflexivity|].
      * destruct Ht as [<-|[<-|[]]]; destruct Hf.
      * destruct Hd as (D1 & D2 & D3 & D4 & _). cbn [x_src x_src_cols x_dst x_dst_cols] in *.
        apply parse_named in D1. apply parse_named in D2. vm_compute in D1, D2. injection D1 as <-. injection D2 as D2. destruct fk as [cs d dcs]. cbn [fk_cols fk_dst fk_dst_cols] in *. subst.
        intros r Hr _. vm_compute in Hr. destruct Hr as [<-|[]]. exists [("id", VInt 7)]. split; [left; reflexivity|]. constructor; [vm_compute; repeat split; discriminate|constructor].
    + split; [vm_compute; reflexivity|]. split; [vm_compute; reflexivity|]. split; [constructor|]. split; [intros s cs n t c []|].
      split; [intros s k _; apply eqb_true|]. split; [|intros Hf; cbn [yenv en_reopen] in Hf; discriminate Hf].
      intros n c (cs & Hin & Hc'). destruct Hin as [Eq|[Eq|[]]]; inversion Eq; subst; destruct Hc' as [<-|[]]; apply uniqueb_true; vm_compute; reflexivity.
  - exists "a.note". split; [vm_compute; tauto|]. split; [apply parse_named; reflexivity|]. split; [apply parse_named; reflexivity|].
    split; [eexists; split; [vm_compute; left; reflexivity|reflexivity]|]. split; [left; reflexivity|]. intros k _. split; [intros f []|reflexivity].
  - exists "a.user". split; [vm_compute; tauto|]. split; [apply parse_named; reflexivity|]. split; [apply parse_named; reflexivity|].
    split; [eexists; split; [vm_compute; right; left; reflexivity|reflexivity]|]. split; [left; reflexivity|]. intros k _. split; [intros f []|reflexivity].
  - destruct C96_extra_case as (_ & E1 & E2). rewrite E1, E2. intros H. destruct (H _ (or_introl eq_refl)) as (r' & Hr & Hf).
    + intros c [<-|[]]. discriminate.
    + destruct Hr as [<-|[]]. inversion Hf as [|? ? ? ? (_ & _ & Hx')]; subst. vm_compute in Hx'. discriminate Hx'.
Qed.

(** *** C97: a.note.uid refers to a.user.id, and with a.note.gid to a.member.(id, gid), the last foreign key.  The gid of the note is
    NULL, so that it needs no member; but its uid is looked up among the members, and lost. *)
Definition mdb : list table :=
  [ mkTable ("a", "note") ["id"; "uid"; "gid"] ["id"] [mkFK ["uid"] ("a", "user") ["id"]; mkFK ["uid"; "gid"] ("a", "member") ["id"; "gid"]] [];
    mkTable ("a", "user") ["id"] ["id"] [] []; mkTable ("a", "member") ["id"; "gid"] ["id"] [] [["id"; "gid"]] ].
Definition msource (n : tname) : list row :=
  if eqb n ("a", "note") then [ [("id", VInt 9); ("uid", VInt 7); ("gid", VNull)] ]
  else if eqb n ("a", "user") then [ [("id", VInt 7)] ]
  else if eqb n ("a", "member") then [ [("id", VInt 3); ("gid", VInt 4)] ] else [].
Example C97_last_case : snd (yafter mdb msource []) = Ok tt /\
  rows_of (w_dest (fst (yafter mdb msource []))) ("a", "note") = [ [("id", VInt 1); ("uid", VNull); ("gid", VNull)] ] /\
  rows_of (w_dest (fst (yafter mdb msource []))) ("a", "user") = [ [("id", VInt 1)] ].
Proof. vm_compute. repeat split. Qed.
Theorem C97_last_refuted : exists (E : env unit) cfg c p pcfg ms compact truncate w w' fk n n' x dx r row,
  renumbering_run E cfg c p pcfg ms compact truncate w w' /\ arrives E cfg c p truncate w w' n n' (fk_cols fk) /\ planned p (fk_dst fk) /\
  considered (en_fnm E) pcfg (en_source_schema E) n fk /\ (exists t, table_of (en_source_schema E) n t /\ In fk (tb_fks t)) /\
  In (x, dx) (combine (fk_cols fk) (fk_dst_cols fk)) /\ compacted compact (fk_dst fk) dx /\ ~ compacted compact n x /\
  (* the only row of [n], and what was written *)
  en_source E n = [r] /\ (forall k, In k (fk_cols fk) -> rget r k <> VNull) /\ rows_of (w_dest w') n' = [row] /\ rget row x = VNull.
Proof.
  destruct C97_last_case as (Ha & H1 & _).
  exists (yenv mdb msource), (ycfg []), (yout []), (yplan mdb []), (ypcfg []), (ymeta mdb (yplan mdb [])), [(("a", "note"), ["id"]); (("a", "user"), ["id"]); (("a", "member"), ["id"])],
    true, (ybefore mdb), (fst (yafter mdb msource [])), (mkFK ["uid"] ("a", "user") ["id"]), ("a", "note"), ("a", "note"), "uid", "id",
    [("id", VInt 9); ("uid", VInt 7); ("gid", VNull)], [("id", VInt 1); ("uid", VNull); ("gid", VNull)].
  split.
  { apply y_run; [vm_compute; reflexivity|intros x []|vm_compute; reflexivity| | | |exact Ha].
    - intros t [<-|[<-|[<-|[]]]]; (split; [nd|]); (split; [vm_compute; intuition discriminate|]); intros _; nd.
    - intros n fk (_ & [[[(t & [Ht Hn] & Hf)|[C _]] _]|(x & [] & _)]); [|exfalso; apply C; reflexivity].
      destruct Ht as [<-|[<-|[<-|[]]]]; cbn in Hn, Hf; try contradiction; subst n; destruct Hf as [<-|[<-|[]]]; intros r Hr Hnn; vm_compute in Hr; destruct Hr as [<-|[]].
      + exists [("id", VInt 7)]. split; [left; reflexivity|]. constructor; [vm_compute; repeat split; discriminate|constructor].
      + elim (Hnn "gid"); [right; left; reflexivity|reflexivity].
    - split; [vm_compute; reflexivity|]. split; [vm_compute; reflexivity|]. split; [constructor|]. split; [intros s cs n t c []|].
      split; [intros s k _; apply eqb_true|]. split; [|intros Hf; cbn [yenv en_reopen] in Hf; discriminate Hf].
      intros n c (cs & Hin & Hc). destruct Hin as [Eq|[Eq|[Eq|[]]]]; inversion Eq; subst; destruct Hc as [<-|[]]; apply uniqueb_true; vm_compute; reflexivity. }
  split.
  { exists "a.note". split; [vm_compute; tauto|]. split; [apply parse_named; reflexivity|]. split; [apply parse_named; reflexivity|].
    split; [eexists; split; [vm_compute; left; reflexivity|reflexivity]|]. split; [left; reflexivity|]. intros k _. split; [intros f []|reflexivity]. }
  split; [exists "a.user"; split; [apply parse_named; reflexivity|vm_compute; tauto]|]. split.
  { eapply considered_by; [|left; reflexivity|reflexivity|left; reflexivity|reflexivity].
    eapply (@chosen_by PlannerProps.xfnm (ypcfg []) mdb _ "a.note" "a.note"); [left; reflexivity|reflexivity|reflexivity|left; reflexivity|reflexivity]. }
  split; [eexists; split; [split; [left; reflexivity|reflexivity]|left; reflexivity]|]. split; [left; reflexivity|].
  split; [exists ["id"]; split; [right; left; reflexivity|left; reflexivity]|].
  split; [intros (cs & Hin & Hc); destruct Hin as [Eq|[Eq|[Eq|[]]]]; inversion Eq; subst; destruct Hc as [Eq'|[]]; discriminate Eq'|].
  split; [reflexivity|]. split; [intros k [<-|[]] C; discriminate C|]. split; [exact H1|reflexivity].
Qed.
Print Assumptions C97_last_refuted.
Print Assumptions C96_chain_refuted.
Print Assumptions C96_extra_refuted.
