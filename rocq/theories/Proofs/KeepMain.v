(** What a command line leaves of the output. *)
From Verif Require Import Model.Base Model.Value Model.Names Model.PlanModel Model.Metadata Model.Planner Model.Filters Model.Multiply Model.Materialize Model.Dest Model.Output Model.Sampler
  Model.Config Model.PlanIO Model.ConfigIO Model.Main Model.Args.
From Verif Require Import Spec.OutputSpec Spec.CliSpec Spec.ArgsSpec Spec.KeepSpec.
From Verif Require Import Proofs.BaseFacts Proofs.OutputRows Proofs.OutputMain Proofs.CliFacts Proofs.ArgsParse Proofs.ArgsHelp Proofs.KeepRun.
From Verif Require Import Model.Dest.
Set Implicit Arguments. Unset Strict Implicit.
Open Scope string_scope.
Open Scope list_scope.

Section Main.
Variable negative : string -> bool.
Context {G : Type}.
Variable getenv : string -> option string.
Variable to_int : string -> option Z.
Variable reachable : engine -> bool.
Variable environment : engine -> env G.
Variables (ord_graph : list string -> list string) (ord_names : list tname -> list tname) (explicit : PlanIO.path -> bool) (start : G)
  (can_open can_write : string -> bool) (partly : string -> content).
Notation main := (main getenv to_int reachable environment ord_graph ord_names explicit start can_open can_write partly).
Notation runs := (runs getenv to_int reachable environment start).
Notation told := (told getenv to_int reachable environment ord_graph ord_names).

Lemma program_cases argv s : (exists a, says negative argv a /\ program negative main argv s = main a s) \/
  (forall a, ~ says negative argv a) /\ (program negative main argv s = (s, 0%Z) /\ (exists w, In w argv /\ asks_help w) \/ program negative main argv s = (s, 2%Z)).
Proof.
  unfold program. destruct (parse_args negative argv) as [a|x] eqn:E; [left; exists a; split; [apply parse_says; exact E|reflexivity]|]. right.
  split; [intros a Ha; apply parse_says in Ha; congruence|]. destruct x; [left|right; reflexivity]. split; [reflexivity|exact (parse_help E)].
Qed.

Theorem program_says argv s : (forall a, says negative argv a -> program negative main argv s = main a s) /\
  (wants_help negative argv -> program negative main argv s = (s, 0%Z)) /\
  ((forall a, ~ says negative argv a) -> program negative main argv s = (s, 0%Z) /\ (exists w, In w argv /\ asks_help w) \/ program negative main argv s = (s, 2%Z)).
Proof.
  split; [|split].
  - intros a Ha. unfold program. apply parse_says in Ha. rewrite Ha. reflexivity.
  - intros Hh. unfold program. rewrite (parse_helped Hh). reflexivity.
  - intros Hno. destruct (program_cases argv s) as [(a & Ha & _)|(_ & H)]; [elim (Hno a Ha)|exact H].
Qed.
Lemma told_configured s a c p t cr : told s a c p t cr -> configured s a c /\ truncates (ar_action a) = t /\ creates (ar_action a) = cr.
Proof.
  unfold CliSpec.told. destruct (ar_action a) as [out|f t' cr'|t' cr']; [intros []|..].
  - intros ((ds & d & S & L & _) & -> & ->). split; [|auto]. exists ds. split; [|exact L]. apply say_app in S. destruct S as (d1 & d2 & Hd & S & S2). apply (f_equal (@length _)) in S2. rewrite map_length in S2.
    assert (length d2 = 1) by (rewrite <- S2; cbn [inputs]; destruct (String.eqb f "-"); reflexivity). destruct d2 as [|x [|y d2]]; try discriminate. apply app_inj_tail in Hd. destruct Hd as [-> _]. exact S.
  - intros (C & _ & -> & ->). auto.
Qed.
(** One command, whose options are known. *)
Lemma main_does a s s' k : main a s = (s', k) -> one_place same_place s ->
  exists new : list (place * event), cl_log s' = cl_log s ++ new /\
    (forall pl n, In (pl, EvDelete n) new -> truncates (ar_action a) = true) /\ (forall pl ts, In (pl, EvCreate ts) new -> creates (ar_action a) = true) /\
    forall pl, (creates (ar_action a) = false -> ds_tables (cl_places s' pl) = ds_tables (cl_places s pl)) /\
      (truncates (ar_action a) = false -> forall n, added_to (exists c, configured s a c /\ replaces c) (rows_of (cl_places s pl) n) (rows_of (cl_places s' pl) n)).
Proof.
  intros H Hone.
  assert (Hnone : cl_log s' = cl_log s -> (forall pl, cl_places s' pl = cl_places s pl) -> exists new : list (place * event), cl_log s' = cl_log s ++ new /\
    (forall pl n, In (pl, EvDelete n) new -> truncates (ar_action a) = true) /\ (forall pl ts, In (pl, EvCreate ts) new -> creates (ar_action a) = true) /\
    forall pl, (creates (ar_action a) = false -> ds_tables (cl_places s' pl) = ds_tables (cl_places s pl)) /\
      (truncates (ar_action a) = false -> forall n, added_to (exists c, configured s a c /\ replaces c) (rows_of (cl_places s pl) n) (rows_of (cl_places s' pl) n))).
  { intros Hl Hp. exists []. rewrite app_nil_r. split; [exact Hl|]. split; [intros ? ? []|]. split; [intros ? ? []|]. intros pl. rewrite Hp. split; [reflexivity|]. intros _ n. apply added_refl. }
  assert (Hplan : (exists out, ar_action a = APlan out) \/ forall out, ar_action a <> APlan out) by (destruct (ar_action a); [left; eauto|right; discriminate..]).
  destruct Hplan as [(out & Ea)|Ha]; [destruct (plan_command Ea H) as ([Hp Hl] & _); apply Hnone; assumption|].
  destruct (sampling_command Ha H) as [(_ & Hn)|(c & p & t & cr & pl & w & r & T & R & _ & _ & _ & Hlog & Hsame & Hother)]; [apply Hnone; apply Hn|]. clear Hnone.
  destruct (told_configured T) as (Hc & Ht & Hcr). destruct R as (e & sec & dl & _ & _ & Hsec & _ & _ & Hs). destruct (sample_does Hs) as [(tr & Htr & Hrep & Hall) _].
  cbn [trace w_dest app] in Htr, Hrep. rewrite Htr in Hlog. exists (map (pair pl) tr). split; [exact Hlog|]. rewrite Forall_forall in Hall. rewrite Ht, Hcr.
  assert (Hin : forall q e, In (q, e) (map (pair pl) tr) -> In e tr) by (intros q x Hx; apply in_map_iff in Hx; destruct Hx as (y & Hy & Hx); inv Hy; exact Hx).
  split; [intros q n Hx; exact (Hall _ (Hin _ _ Hx))|]. split; [intros q ts Hx; exact (Hall _ (Hin _ _ Hx))|]. intros q.
  assert (Hq : same_place q pl \/ ~ same_place q pl).
  { destruct q as [u|], pl as [v|]; cbn; auto. pose proof (same_place_eq u v) as He. cbn in He. destruct (eqb _ _); [left; apply He; reflexivity|right; intros F; apply He in F; discriminate]. }
  destruct Hq as [Hq|Hq]; [|rewrite (Hother q Hq); split; [reflexivity|intros _ n; apply added_refl]]. rewrite (Hsame q Hq), (Hone q pl Hq). split.
  - intros ->. apply (replay_tables Hrep). intros ts Hx. pose proof (Hall _ Hx) as F. discriminate.
  - intros -> n. apply (replay_added Hrep). intros x Hx. specialize (Hall x Hx). destruct x as [ts|m|m how rs|m v|f|f y]; try exact I; [discriminate|]. cbn in Hall. intros Ho. exists c. split; [exact Hc|].
    destruct (ss_output sec) as [dir|db remap st merge] eqn:Eo; [destruct Hall|]. destruct how as [| |any cs]; try destruct Ho. cbn in Hall. subst st. exists sec, db, remap, merge. auto.
Qed.

Theorem line_keeps argv s s' k : program negative main argv s = (s', k) -> one_place same_place s ->
  exists new : list (place * event), cl_log s' = cl_log s ++ new /\
    ((forall w, In w argv -> ~ means_truncate w) -> (forall pl n, ~ In (pl, EvDelete n) new) /\
       forall pl n, added_to (exists a c, says negative argv a /\ configured s a c /\ replaces c) (rows_of (cl_places s pl) n) (rows_of (cl_places s' pl) n)) /\
    ((forall w, In w argv -> ~ means_create w) -> (forall pl ts, ~ In (pl, EvCreate ts) new) /\ forall pl, ds_tables (cl_places s' pl) = ds_tables (cl_places s pl)).
Proof.
  intros H Hone. destruct (program_cases argv s) as [(a & Ha & Hp)|(_ & [(Hp & _)|Hp])]; rewrite Hp in H.
  2,3: inv H; exists []; rewrite app_nil_r; (split; [reflexivity|]); split; intros _; (split; [intros ? ? []|]); [intros; apply added_refl|reflexivity].
  destruct (main_does H Hone) as (new & Hl & Hd & Hc & Hpl). exists new. split; [exact Hl|]. split; intros Hno.
  - assert (Ht : truncates (ar_action a) = false) by (destruct (truncates (ar_action a)) eqn:E; [destruct (truncate_said Ha E) as (w & Hw & Hm); elim (Hno w Hw Hm)|reflexivity]).
    split; [intros pl n Hx; apply Hd in Hx; congruence|]. intros pl n. refine (added_weaken _ (proj2 (Hpl pl) Ht n)). intros (c & A & B). exists a, c. auto.
  - assert (Ht : creates (ar_action a) = false) by (destruct (creates (ar_action a)) eqn:E; [destruct (create_said Ha E) as (w & Hw & Hm); elim (Hno w Hw Hm)|reflexivity]).
    split; [intros pl n Hx; apply Hc in Hx; congruence|]. intros pl. exact (proj1 (Hpl pl) Ht).
Qed.
End Main.
