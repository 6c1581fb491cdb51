(** Properties C115 and C119 of whole runs, seen from the destinations. *)
From Coq Require Import Lia QArith Permutation.
From Verif Require Import Model.Base Model.Value Model.Names Model.PlanModel Model.SqlAlgebra Model.Metadata Model.Planner Model.Filters Model.Multiply Model.Materialize Model.Dest Model.Output Model.Sampler.
From Verif Require Import Spec.GraphSpec Spec.SchemaSpec Spec.SqlSem Spec.PlannerSpec Spec.FilterSpec Spec.OutputSpec Spec.SampleSpec Spec.RunSpec Spec.WholeSpec Spec.WidenSpec Spec.AgainSpec.
From Verif Require Import Proofs.BaseFacts Proofs.NameFacts Proofs.MetadataMain Proofs.PlannerExamples Proofs.SampleFinal Proofs.SampleExamples Proofs.OutputExamples Proofs.AgainRun.
From Verif Require Props.PlannerProps Props.WholeProps Props.WholeRunProps Props.WidenProps.
From Verif Require Import Model.Dest.
Open Scope string_scope.
Open Scope list_scope.

Section Props.
Context {G G' : Type}.
Variables (E : env G) (E' : env G').
Notation rows w n := (rows_of (w_dest w) n).
(** Both runs read databases with the same tables, which compare values alike. *)
Definition alike : Prop :=
  en_source_schema E' = en_source_schema E /\ en_fnm E' = en_fnm E /\ en_cmp E' = en_cmp E /\ en_text E' = en_text E /\ eq_symmetric (en_cmp E).

(** C115.  [w'] is left by the first run, [v'] by the second. *)
Theorem C115_runs : forall pcfg targets cs cfg cfg' c c' p p' truncate truncate' create create' w w' v v',
  alike -> copies E pcfg cfg c p truncate create w w' -> copies E' (retargeted pcfg targets cs) cfg' c' p' truncate' create' v v' ->
  widened (en_cmp E) (en_text E) pcfg (retargeted pcfg targets cs) -> (forall n, planned p n -> incl (en_source E n) (en_source E' n)) ->
  forall n n' n2 tb, planned p n -> table_of (en_source_schema E) n tb ->
    arrives E cfg c p truncate w w' n n' -> arrives E' cfg' c' p' truncate' v v' n n2 ->
  forall r, In r (rows w' n') -> exists r', In r' (rows v' n2) /\ same_values (tb_cols tb) r r'.
Proof.
  intros pcfg ts cs cfg cfg' c c' p p' t t' cr cr' w w' v v' (H1 & H2 & H3 & H4 & H5) H H' Hw Hsrc n n' n2 tb Hp Htb Ha Ha'.
  exact (proj2 (runs_larger H1 H2 H3 H4 H5 H H' Hw Hsrc Hp Htb Ha Ha')).
Qed.

(** C119.  In full: [settled] asks for no percentages below 100 only.  The rows of the source have the columns of their tables. *)
Theorem C119_run_again_partial : forall pcfg cfg cfg' c c' p p' truncate truncate' create create' w w' v v',
  alike -> copies E pcfg cfg c p truncate create w w' -> copies E' pcfg cfg' c' p' truncate' create' v v' ->
  settled (en_fnm E) pcfg (en_source_schema E) p ->
  (forall n tb r, planned p n -> table_of (en_source_schema E) n tb -> In r (en_source E n) -> map fst r = tb_cols tb) ->
  reads_result E cfg c p truncate w w' E' ->
  forall n n' n2 tb, planned p n -> table_of (en_source_schema E) n tb ->
    arrives E cfg c p truncate w w' n n' -> arrives E' cfg' c' p' truncate' v v' n n2 ->
  exists l, Permutation l (rows w' n') /\ Forall2 (same_values (tb_cols tb)) l (rows v' n2).
Proof.
  intros pcfg cfg cfg' c c' p p' t t' cr cr' w w' v v' (H1 & H2 & H3 & H4 & H5) H H' Hs Hc Hr n n' n2 tb Hp Htb Ha Ha'.
  exact (proj2 (runs_again H1 H2 H3 H4 H5 H H' Hs Hc Hr Hp Htb Ha Ha')).
Qed.
End Props.
Print Assumptions C115_runs.
Print Assumptions C119_run_again_partial.

(** ** A case: the run of Props/WholeRunProps.v into an empty database, its result as the source of another run into an empty database. *)
Definition venv (source : tname -> list row) : env unit :=
  Sampler.mkEnv ofilters PlannerProps.xfnm osub osets osets PlannerProps.xdb source (fun _ _ => true) (fun _ => false)
    PlannerProps.xcmp PlannerProps.xtext xraw xraw_cols xz xrank true odflt yes (fun _ _ => false) (fun _ => None) (fun _ _ => true) none 1.
Notation out1 := WholeRunProps.wout.
Definition out2 : db_config := mkDbConfig SQLite [] SError false.
Definition empty : world := odest [] [] [].
Definition run (source : tname -> list row) (c : db_config) (p : plan) : world * res out_exn unit := sample (venv source) (ocfg c) p false true tt empty.

(** What reading the source tables' columns from the tables of the first destination gives; the last row first. *)
Definition from1 (n : tname) : tname := if eqb n ("a", "parent") then ("c", "elders") else n.
Definition read_row (cols : list string) (r : row) : row := map (fun k => (k, rget r k)) cols.
Definition reread (n : tname) : list row :=
  match find (fun t => eqb (tb_name t) n) PlannerProps.xdb with
  | Some t => map (read_row (tb_cols t)) (rev (rows_of (w_dest (fst (run PlannerProps.xsource out1 WholeRunProps.wplan))) (from1 n)))
  | None => []
  end.

Lemma v_source_ok : source_ok id_column PlannerProps.xdb reread.
Proof. intros t [<-|[<-|[<-|[<-|[]]]]]; (split; [nd|]); (split; [vm_compute; intuition discriminate|]); intros _; nd. Qed.
Lemma v_copies source pcfg c : source_ok id_column PlannerProps.xdb source -> In pcfg [PlannerProps.cfgA; WidenProps.cfgA2] -> In c [out1; out2] ->
  snd (run source c (PlannerProps.plan_of pcfg)) = Ok tt ->
  copies (venv source) pcfg (ocfg c) c (PlannerProps.plan_of pcfg) false true empty (fst (run source c (PlannerProps.plan_of pcfg))).
Proof.
  intros Hs Hp Hc Hr. destruct WholeRunProps.C87_hypotheses as (H1 & (B1 & B2 & B3 & B4 & B5 & _ & B9) & H3 & Hok & _ & _ & _).
  assert (Hby : planned_by (venv source) (PlannerProps.plan_of pcfg) pcfg).
  { destruct Hp as [<-|[<-|[]]].
    - split; [exact B1|]. split; [exact B2|]. split; [exact B3|]. split; [exact B4|]. split; [exact B5|]. split; [exact Hs|exact B9].
    - destruct WidenProps.A2_sampling as (A1 & A2 & A3 & A4 & _). split; [exact A2|]. split; [exact A3|]. split; [exact A1|]. split; [|split; [exact A4|split; [exact Hs|]]].
      + intros n g t c0 (s & [E|[]] & Hn) [Ht Ht'] Hx. inversion E; subst s g. clear E. apply (proj2 (parse_named _ _)) in Hn. vm_compute in Hn. inversion Hn as [Ex].
        assert (c0 = "pid") as ->. { destruct Hx as [(x & [])|(x & [E|[]])]. inversion E. reflexivity. }
        destruct Ht as [<-|[<-|[<-|[<-|[]]]]]; rewrite <- Ht' in Ex; try discriminate Ex; left; reflexivity.
      + intros s _. apply eqb_true. reflexivity. }
  assert (Hn : no_compaction (sc_compact (ocfg c))) by (repeat split).
  assert (He : env_ok (venv source)) by exact H1.
  constructor; [exact He|exact Hby|exact Hn| |reflexivity| |].
  - constructor; [reflexivity|exact B3|apply db_okb_true; vm_compute; reflexivity|intros l; apply Permutation_refl|intros n s _; apply eqb_true|].
    exact (WholeRunProps.C87_columns (venv source) (ocfg c) _ _ He Hby Hn).
  - destruct Hc as [<-|[<-|[]]]; (split; [reflexivity|split; [reflexivity|cbn; lia]]).
  - exists tt, tt. fold (run source c (PlannerProps.plan_of pcfg)). destruct (run source c (PlannerProps.plan_of pcfg)) as [w r]. cbn in *. congruence.
Qed.

Definition to (c : db_config) (n : tname) : tname := match oc_remap c with [] => n | _ => from1 n end.
Lemma v_planned pcfg n : In pcfg [PlannerProps.cfgA; WidenProps.cfgA2] -> planned (PlannerProps.plan_of pcfg) n -> In n (map tb_name PlannerProps.xdb).
Proof.
  intros Hp (s & Hn & Hs). assert (Hs' : In s ["b.codes"; "a.parent"; "b.grp"; "a.child"]) by (destruct Hp as [<-|[<-|[]]]; vm_compute in Hs; cbn; tauto).
  apply (proj2 (parse_named _ _)) in Hn. destruct Hs' as [<-|[<-|[<-|[<-|[]]]]]; vm_compute in Hn; injection Hn as <-; cbn; tauto.
Qed.
Lemma v_arrives source c p (w' : world) n : In c [out1; out2] -> In n (map tb_name PlannerProps.xdb) -> existsb (fun t => eqb (tb_name t) (to c n)) (ds_tables (w_dest w')) = true ->
  arrives (venv source) (ocfg c) c p false empty w' n (to c n).
Proof.
  intros Hc Hn Ht. split; [|split; [|split; [right; destruct Hc as [<-|[<-|[]]], Hn as [<-|[<-|[<-|[<-|[]]]]]; reflexivity|]]].
  - destruct Hc as [<-|[<-|[]]], Hn as [<-|[<-|[<-|[<-|[]]]]]; apply parse_named; reflexivity.
  - apply existsb_exists in Ht. destruct Ht as (t & H1 & H2). apply (proj1 (eqb_true _ _)) in H2. exists t. split; [exact H1|exact H2].
  - intros s tb k _ _ _. split; [intros f Hf|reflexivity]. destruct Hc as [<-|[<-|[]]]; destruct Hf.
Qed.
Lemma v_alike source source' : alike (venv source) (venv source').
Proof. split; [reflexivity|]. split; [reflexivity|]. split; [reflexivity|]. split; [reflexivity|exact PlannerProps.xcmp_sym]. Qed.
Lemma x_source_ok : source_ok id_column PlannerProps.xdb PlannerProps.xsource.
Proof. apply WholeProps.C77_C81_hypotheses. Qed.

Notation planA := (PlannerProps.plan_of PlannerProps.cfgA).
Definition first : world := fst (run PlannerProps.xsource out1 planA).
Definition second : world := fst (run reread out2 planA).
(** Of three parents, at most one of two is asked for; the one taken is what the second run finds and takes. *)
Example C119_case : rows_of (w_dest first) ("c", "elders") = [ [("pid", VInt 10); ("gid", VInt 100)] ] /\ rows_of (w_dest second) ("a", "parent") = [ [("pid", VInt 10); ("gid", VInt 100)] ] /\
  rows_of (w_dest first) ("a", "child") = [ [("id", VInt 1); ("pid", VInt 10)] ] /\ rows_of (w_dest second) ("a", "child") = [ [("id", VInt 1); ("pid", VInt 10)] ].
Proof. vm_compute. repeat split. Qed.
Example C119_hypotheses :
  copies (venv PlannerProps.xsource) PlannerProps.cfgA (ocfg out1) out1 planA false true empty first /\
  copies (venv reread) PlannerProps.cfgA (ocfg out2) out2 planA false true empty second /\
  settled PlannerProps.xfnm PlannerProps.cfgA PlannerProps.xdb planA /\
  (forall n tb r, planned planA n -> table_of PlannerProps.xdb n tb -> In r (PlannerProps.xsource n) -> map fst r = tb_cols tb) /\
  reads_result (venv PlannerProps.xsource) (ocfg out1) out1 planA false empty first (venv reread).
Proof.
  split; [apply v_copies; [exact x_source_ok|left; reflexivity|left; reflexivity|vm_compute; reflexivity]|].
  split; [apply v_copies; [exact v_source_ok|left; reflexivity|right; left; reflexivity|vm_compute; reflexivity]|].
  split.
  { intros n g H. assert (n = ("a", "parent") /\ g = PlannerProps.tgA) as [-> ->].
    { destruct H as (s & [E|[]] & Hn). injection E as <- <-. split; [|reflexivity]. apply (proj2 (parse_named _ _)) in Hn. vm_compute in Hn. injection Hn as <-. reflexivity. }
    split; [intros q Hq; discriminate Hq|]. right. right. apply PlannerProps.A_target. }
  split.
  { intros n tb r _ (Ht & <-) Hr. destruct Ht as [<-|[<-|[<-|[<-|[]]]]]; vm_compute in Hr; repeat (destruct Hr as [<-|Hr]; [reflexivity|]); destruct Hr. }
  intros n tb Hp (Ht & Hn). exists (to out1 n), (rev (rows_of (w_dest first) (to out1 n))). pose proof (v_planned _ _ (or_introl eq_refl) Hp) as Hin. split; [|split; [apply Permutation_sym, Permutation_rev|]].
  - apply v_arrives; [left; reflexivity|exact Hin|]. destruct Hin as [<-|[<-|[<-|[<-|[]]]]]; vm_compute; reflexivity.
  - subst n. clear Hp Hin. destruct Ht as [<-|[<-|[<-|[<-|[]]]]]; vm_compute; repeat constructor; intros k Hk; repeat (destruct Hk as [<-|Hk]; [reflexivity|]); destruct Hk.
Qed.
Example C119_consequence : forall n tb, planned planA n -> table_of PlannerProps.xdb n tb ->
  exists l, Permutation l (rows_of (w_dest first) (to out1 n)) /\ Forall2 (same_values (tb_cols tb)) l (rows_of (w_dest second) n).
Proof.
  intros n tb Hp Ht. destruct C119_hypotheses as (H1 & H2 & H3 & H4 & H5). pose proof (v_planned _ _ (or_introl eq_refl) Hp) as Hin.
  refine (C119_run_again_partial _ _ _ _ _ _ _ _ _ _ _ _ _ _ _ _ _ (v_alike _ _) H1 H2 H3 H4 H5 n (to out1 n) n tb Hp Ht _ _).
  - apply v_arrives; [left; reflexivity|exact Hin|]. destruct Hin as [<-|[<-|[<-|[<-|[]]]]]; vm_compute; reflexivity.
  - apply (v_arrives reread out2); [right; left; reflexivity|exact Hin|]. destruct Hin as [<-|[<-|[<-|[<-|[]]]]]; vm_compute; reflexivity.
Qed.

(** C115: the wider targets of Props/WidenProps.v. *)
Notation planA2 := (PlannerProps.plan_of WidenProps.cfgA2).
Definition wider : world := fst (run PlannerProps.xsource out2 planA2).
Example C115_run_case : forall n tb r, planned planA n -> table_of PlannerProps.xdb n tb -> In r (rows_of (w_dest first) (to out1 n)) ->
  exists r', In r' (rows_of (w_dest wider) n) /\ same_values (tb_cols tb) r r'.
Proof.
  intros n tb r Hp Ht. destruct C119_hypotheses as (H1 & _). pose proof (v_planned _ _ (or_introl eq_refl) Hp) as Hin.
  assert (H2 : copies (venv PlannerProps.xsource) WidenProps.cfgA2 (ocfg out2) out2 planA2 false true empty wider).
  { apply v_copies; [exact x_source_ok|right; left; reflexivity|right; left; reflexivity|vm_compute; reflexivity]. }
  refine (C115_runs _ _ _ _ _ _ _ _ _ _ _ _ _ _ _ _ _ _ _ (v_alike _ _) H1 H2 WidenProps.A2_widened (fun m _ => incl_refl _) n (to out1 n) n tb Hp Ht _ _ r).
  - apply v_arrives; [left; reflexivity|exact Hin|]. destruct Hin as [<-|[<-|[<-|[<-|[]]]]]; vm_compute; reflexivity.
  - apply (v_arrives PlannerProps.xsource out2); [right; left; reflexivity|exact Hin|]. destruct Hin as [<-|[<-|[<-|[<-|[]]]]]; vm_compute; reflexivity.
Qed.
Example C115_run_rows : length (rows_of (w_dest first) ("c", "elders")) = 1%nat /\ length (rows_of (w_dest wider) ("a", "parent")) = 3%nat.
Proof. vm_compute. split; reflexivity. Qed.
