(** Commands run by different processes: sampling in two steps, and sampling again. *)
From Coq Require Import Lia Permutation.
From Verif Require Import Model.Base Model.Value Model.Names Model.PlanModel Model.Metadata Model.Planner Model.Multiply Model.Materialize Model.Dest Model.Output Model.Sampler
  Model.Config Model.PlanIO Model.ConfigIO Model.Main.
From Verif Require Import Spec.GraphSpec Spec.SchemaSpec Spec.SqlSem Spec.PlannerSpec Spec.FilterSpec Spec.OutputSpec Spec.RunSpec Spec.SampleSpec Spec.WholeSpec Spec.CompactWholeSpec Spec.SameSpec Spec.ConfigSpec Spec.CliSpec Spec.ProcessSpec.
From Verif Require Import Proofs.BaseFacts Proofs.ConfigFacts Proofs.ConfigLoad Proofs.PlannerDet Proofs.OutputDirectory Proofs.PlanIOPlanner Proofs.CliFacts Proofs.TwoSteps Proofs.CliEnv Proofs.SamePlan.
From Verif Require Import Model.Dest.
Set Implicit Arguments.
Unset Strict Implicit.
Open Scope string_scope.
Open Scope list_scope.

Lemma in_keys_perm A B (l l' : list (A * B)) x : Permutation l l' -> In x (dkeys l) <-> In x (dkeys l').
Proof. intros H. split; [exact (Permutation_in _ (Permutation_map fst H))|exact (Permutation_in _ (Permutation_sym (Permutation_map fst H)))]. Qed.

Section Commands.
Context {G : Type}.
Variable getenv : string -> option string.
Variable to_int : string -> option Z.
Variable reachable : engine -> bool.
Variable environment : engine -> env G.
Variables (explicit : PlanIO.path -> bool) (can_open can_write : string -> bool) (partly : string -> content).
Notation main x := (main getenv to_int reachable (seen_in environment x) (pr_graph x) (pr_names x) explicit (pr_start x) can_open can_write partly).
Notation plans x := (plans getenv to_int reachable (seen_in environment x) (pr_graph x) (pr_names x)).
Notation runs x := (runs getenv to_int reachable (seen_in environment x) (pr_start x)).
Notation output_place := (output_place getenv to_int).

(** Two processes plan the same. *)
Lemma planned_alike (x y : process G) c p p' : process_ok x -> process_ok y -> (forall e, source_of getenv to_int c e -> db_ok (en_source_schema (environment e))) ->
  plans x c p -> plans y c p' -> Permutation (p_queries p) (p_queries p') /\ forall t, In t (p_passthrough p) <-> In t (p_passthrough p').
Proof.
  intros (X1 & X2 & _) (Y1 & Y2 & _) Hdb (pc & e & A & B & _ & D) (pc' & e' & A' & B' & _ & D'). rewrite A in A'. injection A' as <-. pose proof B as Bs. unfold source_of in B, B'. rewrite B in B'. injection B' as <-.
  pose proof (@plan_det (en_fnm (environment e)) pc (en_source_schema (environment e)) (pr_graph x) (pr_graph y) (pr_names x) (pr_names y) (Hdb e Bs) X1 Y1 X2 Y2) as H.
  cbn [seen_in in_process en_fnm en_source_schema] in D, D'. unfold seen_in in D, D'. cbn [in_process en_fnm en_source_schema] in D, D'. rewrite D, D' in H. destruct H as (pass & pass' & rest & -> & -> & P & -> & ->).
  split; [exact (Permutation_app_tail _ P)|]. intros t. exact (in_keys_perm _ P).
Qed.

(** What a successful subset command does. *)
Lemma subset_command x files truncate create s s' : main x (mkArgs files (ASubset truncate create)) s = (s', 0%Z) ->
  exists c p pl w g, configured s (mkArgs files (ASubset truncate create)) c /\ plans x c p /\ runs x c p truncate create pl (cl_places s pl) w (Ok g) /\
    cl_places s' pl = w_dest w /\ (forall q, ~ same_place q pl -> cl_places s' q = cl_places s q).
Proof.
  intros H. destruct (sampling_command (a := mkArgs files (ASubset truncate create)) ltac:(discriminate) H) as [(X & _)|(c & p & t & cr & pl & w & r & T & R & K & _ & _ & _ & W & Q)]; [discriminate|]. pose proof (W pl (same_place_refl pl)) as W'. clear W. rename W' into W.
  destruct (proj1 K eq_refl) as (g & ->). destruct T as (C & P & <- & <-). exists c, p, pl, w, g. auto.
Qed.
(** ... and sampling a plan written by another process. *)
Lemma steps_command x y files file truncate create s s1 s2 :
  let cmd a := mkArgs files a in
  file <> "" -> file <> "-" -> ~ In "-" (config_files (cmd (APlan None))) -> ~ In file (config_files (cmd (APlan None))) ->
  main x (cmd (APlan (Some file))) s = (s1, 0%Z) -> main y (cmd (ASample file truncate create)) s1 = (s2, 0%Z) ->
  exists c p p' pl w g, configured s (cmd (APlan None)) c /\ plans x c p /\ Permutation (p_queries p) (p_queries p') /\ p_passthrough p = p_passthrough p' /\
    runs y c p' truncate create pl (cl_places s pl) w (Ok g) /\ cl_places s2 pl = w_dest w /\ (forall q, ~ same_place q pl -> cl_places s2 q = cl_places s q).
Proof.
  intros cmd Hne Hnd Hstd Hfile H1 H2.
  destruct (plan_command (a := cmd (APlan (Some file))) eq_refl H1) as ((P1 & _) & K & _). destruct (K eq_refl) as (c & p & Hc & Hp & Hout). clear K.
  assert (Hout' : cl_files s1 file = Some (Doc (sort_keys (dump_plan explicit p))) /\ (forall f, f <> file -> cl_files s1 f = cl_files s f)).
  { destruct file as [|ch file]; [congruence|]. split; apply Hout. } clear Hout. destruct Hout' as [Hf1 Hf2].
  assert (Hpl : exists p', load_plan (sort_keys (dump_plan explicit p)) = Ok p' /\ Permutation (p_queries p) (p_queries p') /\ p_passthrough p = p_passthrough p').
  { destruct Hp as (pc & e & _ & _ & _ & Hp). destruct (plan_file explicit Hp) as (p' & L & P & _ & Q). eauto. }
  destruct Hpl as (p' & Lp & HP & Hpass).
  destruct (sampling_command (a := cmd (ASample file truncate create)) ltac:(discriminate) H2) as [(X & _)|(c2 & p2 & t2 & cr2 & pl2 & w2 & r2 & T2 & R2 & K2 & _ & _ & _ & W2 & Q2)]; [discriminate|]. pose proof (W2 pl2 (same_place_refl pl2)) as W2'. clear W2. rename W2' into W2.
  destruct (proj1 K2 eq_refl) as (g2 & ->). destruct T2 as ((ds & d & S & Lc & Ld) & <- & <-).
  apply say_app in S. destruct S as (d1 & d2 & Ed & S1 & S2). change (config_files (cmd (ASample file truncate create))) with (config_files (cmd (APlan None))) in *.
  rewrite (left_over_same _ Hstd) in S2. cbn [inputs] in S2. rewrite (proj2 (String.eqb_neq _ _) Hnd) in S2. rewrite Hf1 in S2.
  destruct d2 as [|d0 [|? ?]]; [discriminate| |discriminate]. cbn [map] in S2. assert (Ed0 : d0 = sort_keys (dump_plan explicit p)) by congruence. clear S2. subst d0. apply app_inj_tail in Ed. destruct Ed as [<- ->].
  assert (c2 = c).
  { destruct Hc as (ds' & S' & C'). assert (ds = ds').
    { assert (SS : say s (config_files (cmd (APlan None))) ds).
      { unfold say in *. rewrite <- S1. apply inputs_same; [exact Hstd|]. intros f Hf. symmetry. apply Hf2. intros ->. contradiction. }
      exact (say_fun SS S'). }
    subst ds'. congruence. }
  subst c2. rewrite Ld in Lp. injection Lp as <-. rewrite P1 in R2.
  exists c, p, p2, pl2, w2, g2. split; [exact Hc|]. split; [exact Hp|]. split; [exact HP|]. split; [exact Hpass|]. split; [exact R2|]. split; [exact W2|].
  intros q Hq. rewrite (Q2 q Hq), P1. reflexivity.
Qed.

(** ** Two runs by two processes *)
Section Runs.
Variables (x y : process G) (c : subsetter_config) (p p' : plan) (pc : config) (e : engine) (sec : sampler_section) (truncate create : bool).
Hypothesis Hx : process_ok x.
Notation E := (seen_in environment y e).
Hypothesis Henv : env_ok E.
Hypothesis Hplan : planned_by E p pc.
Hypothesis HP : Permutation (p_queries p) (p_queries p').
Hypothesis Hpass : forall t, In t (p_passthrough p) <-> In t (p_passthrough p').
Hypothesis Hfree : plan_random_free (p_queries p).
Hypothesis Hsrc : source_of getenv to_int c e.
Hypothesis Hsec : sub_sampler c = Some sec.

Lemma runs_database u db remap str merge d d0 w2 g2 w3 g3 :
  let cfg := sampler_of sec (dialect_of u) in
  let dc := mkDbConfig (dialect_of u) remap str merge in
  ss_output sec = OsDatabase db remap str merge -> renumbers_soundly E cfg p -> run_ok E cfg dc p d ->
  ds_tables d0 = ds_tables d -> truncate = true \/ (forall n, rows_of d0 n = rows_of d n) ->
  runs x c p' truncate create (AtDatabase u) d0 w2 (Ok g2) -> runs y c p truncate create (AtDatabase u) d w3 (Ok g3) ->
  let d2 := w_dest w2 in
  let d3 := w_dest w3 in
  (forall n tb, table_of (ds_tables d2) n tb <-> table_of (ds_tables d3) n tb) /\
  (forall n, (forall t, In t (dkeys (p_queries p)) -> lands (en_resub E) remap t n -> steady_table E cfg t) ->
     truncate = true /\ affected (en_resub E) remap (ds_tables d3) (dkeys (p_queries p)) n \/ rows_of d0 n = rows_of d n -> rows_of d2 n = rows_of d3 n) /\
  (forall t n n' tb tb', In t (dkeys (p_queries p)) -> named t n -> table_of (en_source_schema E) n tb -> lands (en_resub E) remap t n' ->
     table_of (ds_tables d3) n' tb' -> strategy_of dc p t = SError ->
     exists new2 new3, rows_of d2 n' = (if truncate then [] else rows_of d n') ++ new2 /\ rows_of d3 n' = (if truncate then [] else rows_of d n') ++ new3 /\
       Forall2 (fun row2 row3 => forall k, In k (tb_cols tb) -> untouched_column E cfg t n' k -> rget row2 k = rget row3 k) new2 new3).
Proof.
  intros cfg dc Hout Hren Hok Hsch Hrows R2 R3 d2 d3. destruct Hx as (_ & _ & Hos & Hon & Hz).
  destruct R2 as (e2 & sec2 & dl2 & S2 & _ & Z2 & _ & D2 & R2). destruct R3 as (e3 & sec3 & dl3 & S3 & _ & Z3 & _ & D3 & R3).
  rewrite (speaks_fun (D2 _ eq_refl)) in R2. rewrite (speaks_fun (D3 _ eq_refl)) in R3.
  unfold source_of in *. rewrite Hsrc in S2, S3. injection S2 as <-. injection S3 as <-. rewrite Hsec in Z2, Z3. injection Z2 as <-. injection Z3 as <-.
  fold cfg in R2, R3. change (seen_in environment x e) with (in_process E (pr_str x) (pr_name x) (pr_rnd x)) in R2.
  assert (Hok' : run_ok E cfg dc p (w_dest (mkWorld d []))) by exact Hok. assert (Hsch' : ds_tables (w_dest (mkWorld d0 [])) = ds_tables (w_dest (mkWorld d []))) by exact Hsch.
  assert (Hrows' : truncate = true \/ (forall n, rows_of (w_dest (mkWorld d0 [])) n = rows_of (w_dest (mkWorld d [])) n)) by exact Hrows.
  split; [|split].
  - exact (tables_same (w := mkWorld d []) (w0 := mkWorld d0 []) Henv Hplan Hren HP Hpass Hos Hon Hz Hok' eq_refl eq_refl Hsch' R2 R3).
  - intros n Hst Hb. exact (rows_same (w := mkWorld d []) (w0 := mkWorld d0 []) Henv Hplan Hren HP Hpass Hos Hon Hz Hfree Hok' eq_refl eq_refl Hsch' Hrows' R2 R3 Hst Hb).
  - intros t n n' tb tb' Ht Hn Htb Hto Htb' Hstr. exact (untouched_same (w := mkWorld d []) (w0 := mkWorld d0 []) Henv Hplan Hren HP Hpass Hos Hon Hz Hfree Hok' eq_refl eq_refl Hsch' Hrows' R2 R3 Ht Hn Htb Hto Htb' Hstr).
Qed.
Lemma runs_directory dir d d0 w2 g2 w3 g3 :
  let cfg := sampler_of sec MySQL in
  ss_output sec = OsDirectory dir -> any_order (en_ord_str E) -> renumbers_soundly E cfg p ->
  runs x c p' truncate create AtDisk d0 w2 (Ok g2) -> runs y c p truncate create AtDisk d w3 (Ok g3) ->
  (forall f, (forall t, In t (dkeys (p_queries p)) -> f = json_file dir t -> steady_table E cfg t) ->
     (exists t, In t (dkeys (p_queries p)) /\ f = json_file dir t) \/ file_of d0 f = file_of d f -> file_of (w_dest w2) f = file_of (w_dest w3) f) /\
  (forall t n tb, In t (dkeys (p_queries p)) -> named t n -> table_of (en_source_schema E) n tb ->
     Forall2 (fun row2 row3 => forall k, In k (tb_cols tb) -> (forall f, In f (filters_of cfg t) -> ~ may_change f k) -> rget row2 k = rget row3 k)
       (file_of (w_dest w2) (json_file dir t)) (file_of (w_dest w3) (json_file dir t))).
Proof.
  intros cfg Hout Hord Hren R2 R3. destruct Hx as (_ & _ & Hos & Hon & Hz).
  destruct R2 as (e2 & sec2 & dl2 & S2 & _ & Z2 & _ & _ & R2). destruct R3 as (e3 & sec3 & dl3 & S3 & _ & Z3 & _ & _ & R3).
  unfold source_of in *. rewrite Hsrc in S2, S3. injection S2 as <-. injection S3 as <-. rewrite Hsec in Z2, Z3. injection Z2 as <-. injection Z3 as <-.
  assert (Ed : forall dl, sampler_of sec dl = cfg) by (intros dl; unfold cfg, sampler_of; rewrite Hout; reflexivity). rewrite Ed in R2, R3.
  change (seen_in environment x e) with (in_process E (pr_str x) (pr_name x) (pr_rnd x)) in R2.
  assert (Ho : sc_output cfg = ToDirectory dir) by (unfold cfg, sampler_of; cbn; rewrite Hout; reflexivity).
  split.
  - intros f Hst Hb. exact (files_same Henv Hplan Hren HP Hpass Hos Hon Hz Hfree Ho Hord R2 R3 Hst Hb).
  - intros t n tb Ht Hn Htb. exact (file_columns_same Henv Hplan Hren HP Hpass Hos Hon Hz Hfree Ho Hord R2 R3 Ht Hn Htb).
Qed.
End Runs.

(** C91 *)
Theorem two_steps_database x y z (Hx : process_ok x) (Hy : process_ok y) (Hz : process_ok z) files file truncate create s s1 s2 s3 c p pc e sec u db remap str merge :
  let cmd a := mkArgs files a in
  file <> "" -> file <> "-" -> ~ In "-" (config_files (cmd (APlan None))) -> ~ In file (config_files (cmd (APlan None))) ->
  main x (cmd (APlan (Some file))) s = (s1, 0%Z) -> main y (cmd (ASample file truncate create)) s1 = (s2, 0%Z) -> main z (cmd (ASubset truncate create)) s = (s3, 0%Z) ->
  configured s (cmd (APlan None)) c -> distinct_keys s (cmd (APlan None)) -> plans z c p -> sub_planner c = Some pc -> source_of getenv to_int c e ->
  sub_sampler c = Some sec -> ss_output sec = OsDatabase db remap str merge -> output_place c (AtDatabase u) ->
  let E := seen_in environment z e in
  let cfg := sampler_of sec (dialect_of u) in
  let dc := mkDbConfig (dialect_of u) remap str merge in
  let d := cl_places s (AtDatabase u) in
  let d2 := cl_places s2 (AtDatabase u) in
  let d3 := cl_places s3 (AtDatabase u) in
  env_ok E -> sound_source E pc p -> plan_random_free (p_queries p) -> renumbers_soundly E cfg p -> run_ok E cfg dc p d ->
  (forall n tb, table_of (ds_tables d2) n tb <-> table_of (ds_tables d3) n tb) /\
  (forall n, (forall t, In t (dkeys (p_queries p)) -> lands (en_resub E) remap t n -> steady_table E cfg t) -> rows_of d2 n = rows_of d3 n) /\
  (forall t n n' tb tb', In t (dkeys (p_queries p)) -> named t n -> table_of (en_source_schema E) n tb -> lands (en_resub E) remap t n' ->
     table_of (ds_tables d3) n' tb' -> strategy_of dc p t = SError ->
     exists new2 new3, rows_of d2 n' = (if truncate then [] else rows_of d n') ++ new2 /\ rows_of d3 n' = (if truncate then [] else rows_of d n') ++ new3 /\
       Forall2 (fun row2 row3 => forall k, In k (tb_cols tb) -> untouched_column E cfg t n' k -> rget row2 k = rget row3 k) new2 new3) /\
  (forall q, ~ same_place q (AtDatabase u) -> cl_places s2 q = cl_places s3 q).
Proof.
  intros cmd Hne Hnd Hstd Hfile H1 H2 H3 Hc Hw Hp Hpc Hsrc Hsec Hout Hu E cfg dc d d2 d3 Henv Hsound Hfree Hren Hok.
  pose proof (planned (proj1 Hz) (proj1 (proj2 Hz)) Hc Hw Hpc Hsrc Hp Hsound) as Hplan.
  destruct (steps_command Hne Hnd Hstd Hfile H1 H2) as (c2 & p1 & p2 & pl2 & w2 & g2 & C2 & P1 & HP & Hpass & R2 & W2 & Q2). destruct (subset_command H3) as (c3 & p3 & pl3 & w3 & g3 & C3 & P3 & R3 & W3 & Q3).
  rewrite (configured_fun C2 Hc) in *. change (configured s (cmd (APlan None)) c3) in C3. rewrite (configured_fun C3 Hc) in *. rewrite (plans_fun P3 Hp) in *.
  destruct (@planned_alike _ _ c p p1 Hz Hx) as [HP1 Hpass1]; [intros e0 He0; unfold source_of in *; rewrite Hsrc in He0; injection He0 as <-; exact (proj1 Hsound)|exact Hp|exact P1|].
  assert (HP' : Permutation (p_queries p) (p_queries p2)) by exact (perm_trans HP1 HP). assert (Hpass' : forall t, In t (p_passthrough p) <-> In t (p_passthrough p2)) by (intros t; rewrite <- Hpass; apply Hpass1).
  assert (Hpl2 : pl2 = AtDatabase u) by (destruct R2 as (? & ? & ? & _ & _ & _ & O & _); exact (place_fun O Hu)). assert (Hpl3 : pl3 = AtDatabase u) by (destruct R3 as (? & ? & ? & _ & _ & _ & O & _); exact (place_fun O Hu)). subst pl2 pl3.
  destruct (runs_database Hy Henv Hplan HP' Hpass' Hfree Hsrc Hsec Hout Hren Hok eq_refl (or_intror (fun n => eq_refl)) R2 R3) as (A & B & C). unfold d2, d3. rewrite W2, W3.
  split; [exact A|]. split; [intros n Hn; exact (B n Hn (or_intror eq_refl))|]. split; [exact C|]. intros q Hq. rewrite (Q2 q Hq), (Q3 q Hq). reflexivity.
Qed.
Theorem two_steps_directory x y z (Hx : process_ok x) (Hy : process_ok y) (Hz : process_ok z) files file truncate create s s1 s2 s3 c p pc e sec dir :
  let cmd a := mkArgs files a in
  file <> "" -> file <> "-" -> ~ In "-" (config_files (cmd (APlan None))) -> ~ In file (config_files (cmd (APlan None))) ->
  main x (cmd (APlan (Some file))) s = (s1, 0%Z) -> main y (cmd (ASample file truncate create)) s1 = (s2, 0%Z) -> main z (cmd (ASubset truncate create)) s = (s3, 0%Z) ->
  configured s (cmd (APlan None)) c -> distinct_keys s (cmd (APlan None)) -> plans z c p -> sub_planner c = Some pc -> source_of getenv to_int c e ->
  sub_sampler c = Some sec -> ss_output sec = OsDirectory dir ->
  let E := seen_in environment z e in
  let cfg := sampler_of sec MySQL in
  env_ok E -> sound_source E pc p -> plan_random_free (p_queries p) -> renumbers_soundly E cfg p ->
  (forall f, (forall t, In t (dkeys (p_queries p)) -> f = json_file dir t -> steady_table E cfg t) -> file_of (cl_places s2 AtDisk) f = file_of (cl_places s3 AtDisk) f) /\
  (forall t n tb, In t (dkeys (p_queries p)) -> named t n -> table_of (en_source_schema E) n tb ->
     Forall2 (fun row2 row3 => forall k, In k (tb_cols tb) -> (forall f, In f (filters_of cfg t) -> ~ may_change f k) -> rget row2 k = rget row3 k)
       (file_of (cl_places s2 AtDisk) (json_file dir t)) (file_of (cl_places s3 AtDisk) (json_file dir t))) /\
  (forall u, cl_places s2 (AtDatabase u) = cl_places s3 (AtDatabase u)).
Proof.
  intros cmd Hne Hnd Hstd Hfile H1 H2 H3 Hc Hw Hp Hpc Hsrc Hsec Hout E cfg Henv Hsound Hfree Hren.
  pose proof (planned (proj1 Hz) (proj1 (proj2 Hz)) Hc Hw Hpc Hsrc Hp Hsound) as Hplan.
  destruct (steps_command Hne Hnd Hstd Hfile H1 H2) as (c2 & p1 & p2 & pl2 & w2 & g2 & C2 & P1 & HP & Hpass & R2 & W2 & Q2). destruct (subset_command H3) as (c3 & p3 & pl3 & w3 & g3 & C3 & P3 & R3 & W3 & Q3).
  rewrite (configured_fun C2 Hc) in *. change (configured s (cmd (APlan None)) c3) in C3. rewrite (configured_fun C3 Hc) in *. rewrite (plans_fun P3 Hp) in *.
  destruct (@planned_alike _ _ c p p1 Hz Hx) as [HP1 Hpass1]; [intros e0 He0; unfold source_of in *; rewrite Hsrc in He0; injection He0 as <-; exact (proj1 Hsound)|exact Hp|exact P1|].
  assert (HP' : Permutation (p_queries p) (p_queries p2)) by exact (perm_trans HP1 HP). assert (Hpass' : forall t, In t (p_passthrough p) <-> In t (p_passthrough p2)) by (intros t; rewrite <- Hpass; apply Hpass1).
  assert (Hdisk : forall pl, output_place c pl -> pl = AtDisk). { intros pl (s0 & A & B). rewrite Hsec in A. injection A as <-. rewrite Hout in B. exact B. }
  assert (Hpl2 : pl2 = AtDisk) by (destruct R2 as (? & ? & ? & _ & _ & _ & O & _); exact (Hdisk _ O)). assert (Hpl3 : pl3 = AtDisk) by (destruct R3 as (? & ? & ? & _ & _ & _ & O & _); exact (Hdisk _ O)). subst pl2 pl3.
  destruct (runs_directory Hy Henv Hplan HP' Hpass' Hfree Hsrc Hsec Hout (proj1 (proj2 (proj2 Hz))) Hren R2 R3) as (A & B). rewrite W2, W3.
  split; [intros f Hf; exact (A f Hf (or_intror eq_refl))|]. split; [exact B|]. intros u. rewrite (Q2 (AtDatabase u)), (Q3 (AtDatabase u)) by (intros F; exact F). reflexivity.
Qed.
(** C113 *)
Theorem again_database x y (Hx : process_ok x) (Hy : process_ok y) files truncate create s' s s2 s3 c p pc e sec u db remap str merge :
  let cmd := mkArgs files (ASubset truncate create) in
  main x cmd s' = (s2, 0%Z) -> main y cmd s = (s3, 0%Z) ->
  configured s' cmd c -> configured s cmd c -> distinct_keys s cmd -> plans y c p -> sub_planner c = Some pc -> source_of getenv to_int c e ->
  sub_sampler c = Some sec -> ss_output sec = OsDatabase db remap str merge -> output_place c (AtDatabase u) ->
  let E := seen_in environment y e in
  let cfg := sampler_of sec (dialect_of u) in
  let dc := mkDbConfig (dialect_of u) remap str merge in
  let d' := cl_places s' (AtDatabase u) in
  let d := cl_places s (AtDatabase u) in
  let d2 := cl_places s2 (AtDatabase u) in
  let d3 := cl_places s3 (AtDatabase u) in
  env_ok E -> sound_source E pc p -> plan_random_free (p_queries p) -> renumbers_soundly E cfg p -> run_ok E cfg dc p d ->
  ds_tables d' = ds_tables d -> truncate = true \/ (forall n, rows_of d' n = rows_of d n) ->
  (forall n tb, table_of (ds_tables d2) n tb <-> table_of (ds_tables d3) n tb) /\
  (forall n, (forall t, In t (dkeys (p_queries p)) -> lands (en_resub E) remap t n -> steady_table E cfg t) ->
     truncate = true /\ affected (en_resub E) remap (ds_tables d3) (dkeys (p_queries p)) n \/ rows_of d' n = rows_of d n -> rows_of d2 n = rows_of d3 n) /\
  (forall t n n' tb tb', In t (dkeys (p_queries p)) -> named t n -> table_of (en_source_schema E) n tb -> lands (en_resub E) remap t n' ->
     table_of (ds_tables d3) n' tb' -> strategy_of dc p t = SError ->
     exists new2 new3, rows_of d2 n' = (if truncate then [] else rows_of d n') ++ new2 /\ rows_of d3 n' = (if truncate then [] else rows_of d n') ++ new3 /\
       Forall2 (fun row2 row3 => forall k, In k (tb_cols tb) -> untouched_column E cfg t n' k -> rget row2 k = rget row3 k) new2 new3).
Proof.
  intros cmd H2 H3 Hc' Hc Hw Hp Hpc Hsrc Hsec Hout Hu E cfg dc d' d d2 d3 Henv Hsound Hfree Hren Hok Hsch Hrows.
  pose proof (planned (proj1 Hy) (proj1 (proj2 Hy)) Hc Hw Hpc Hsrc Hp Hsound) as Hplan.
  destruct (subset_command H2) as (c2 & p2 & pl2 & w2 & g2 & C2 & P2 & R2 & W2 & _). destruct (subset_command H3) as (c3 & p3 & pl3 & w3 & g3 & C3 & P3 & R3 & W3 & _).
  rewrite (configured_fun C2 Hc') in *. rewrite (configured_fun C3 Hc) in *. rewrite (plans_fun P3 Hp) in *.
  destruct (@planned_alike _ _ c p p2 Hy Hx) as [HP Hpass]; [intros e0 He0; unfold source_of in *; rewrite Hsrc in He0; injection He0 as <-; exact (proj1 Hsound)|exact Hp|exact P2|].
  assert (Hpl2 : pl2 = AtDatabase u) by (destruct R2 as (? & ? & ? & _ & _ & _ & O & _); exact (place_fun O Hu)). assert (Hpl3 : pl3 = AtDatabase u) by (destruct R3 as (? & ? & ? & _ & _ & _ & O & _); exact (place_fun O Hu)). subst pl2 pl3.
  unfold d2, d3. rewrite W2, W3. exact (runs_database Hx Henv Hplan HP Hpass Hfree Hsrc Hsec Hout Hren Hok Hsch Hrows R2 R3).
Qed.
Theorem again_directory x y (Hx : process_ok x) (Hy : process_ok y) files truncate create s' s s2 s3 c p pc e sec dir :
  let cmd := mkArgs files (ASubset truncate create) in
  main x cmd s' = (s2, 0%Z) -> main y cmd s = (s3, 0%Z) ->
  configured s' cmd c -> configured s cmd c -> distinct_keys s cmd -> plans y c p -> sub_planner c = Some pc -> source_of getenv to_int c e ->
  sub_sampler c = Some sec -> ss_output sec = OsDirectory dir ->
  let E := seen_in environment y e in
  let cfg := sampler_of sec MySQL in
  env_ok E -> sound_source E pc p -> plan_random_free (p_queries p) -> renumbers_soundly E cfg p ->
  forall t, In t (dkeys (p_queries p)) ->
  (steady_table E cfg t -> file_of (cl_places s2 AtDisk) (json_file dir t) = file_of (cl_places s3 AtDisk) (json_file dir t)) /\
  (forall n tb, named t n -> table_of (en_source_schema E) n tb ->
     Forall2 (fun row2 row3 => forall k, In k (tb_cols tb) -> (forall f, In f (filters_of cfg t) -> ~ may_change f k) -> rget row2 k = rget row3 k)
       (file_of (cl_places s2 AtDisk) (json_file dir t)) (file_of (cl_places s3 AtDisk) (json_file dir t))).
Proof.
  intros cmd H2 H3 Hc' Hc Hw Hp Hpc Hsrc Hsec Hout E cfg Henv Hsound Hfree Hren t Ht.
  pose proof (planned (proj1 Hy) (proj1 (proj2 Hy)) Hc Hw Hpc Hsrc Hp Hsound) as Hplan.
  destruct (subset_command H2) as (c2 & p2 & pl2 & w2 & g2 & C2 & P2 & R2 & W2 & _). destruct (subset_command H3) as (c3 & p3 & pl3 & w3 & g3 & C3 & P3 & R3 & W3 & _).
  rewrite (configured_fun C2 Hc') in *. rewrite (configured_fun C3 Hc) in *. rewrite (plans_fun P3 Hp) in *.
  destruct (@planned_alike _ _ c p p2 Hy Hx) as [HP Hpass]; [intros e0 He0; unfold source_of in *; rewrite Hsrc in He0; injection He0 as <-; exact (proj1 Hsound)|exact Hp|exact P2|].
  assert (Hdisk : forall pl, output_place c pl -> pl = AtDisk). { intros pl (s0 & A & B). rewrite Hsec in A. injection A as <-. rewrite Hout in B. exact B. }
  assert (Hpl2 : pl2 = AtDisk) by (destruct R2 as (? & ? & ? & _ & _ & _ & O & _); exact (Hdisk _ O)). assert (Hpl3 : pl3 = AtDisk) by (destruct R3 as (? & ? & ? & _ & _ & _ & O & _); exact (Hdisk _ O)). subst pl2 pl3.
  destruct (runs_directory Hx Henv Hplan HP Hpass Hfree Hsrc Hsec Hout (proj1 (proj2 (proj2 Hy))) Hren R2 R3) as (A & B). rewrite W2, W3. split.
  - intros Hst. apply A; [|left; exists t; auto]. intros t' Ht' Ef. replace t' with t; [exact Hst|]. exact (json_file_inj Ef).
  - intros n tb Hn Htb. exact (B t n tb Ht Hn Htb).
Qed.
End Commands.
