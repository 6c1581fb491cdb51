(** Runs at isolation levels above READ COMMITTED (C114). *)
From Coq Require Import Lia.
From Verif Require Import Model.Base Model.Value Model.Names Model.PlanModel Model.SqlAlgebra Model.Metadata Model.Planner Model.Filters Model.Multiply Model.Materialize Model.Output Model.Sampler Model.Live Model.Config Model.Isolation.
From Verif Require Import Spec.GraphSpec Spec.SchemaSpec Spec.SqlSem Spec.PlannerSpec Spec.FilterSpec Spec.OutputSpec Spec.SampleSpec Spec.RunSpec Spec.WholeSpec Spec.LiveSpec Spec.ConfigSpec.
From Verif Require Import Proofs.BaseFacts Proofs.NameFacts Proofs.WholeFk Proofs.LiveRun Proofs.LiveWhole Proofs.LiveFk.
From Verif Require Import Model.Dest.
Set Implicit Arguments. Unset Strict Implicit.
Open Scope string_scope.
Open Scope list_scope.
Open Scope nat_scope.

(** ** The connection *)
Section Connection.
Variables (getenv : string -> option string) (to_int : string -> option Z).
Variables (s : database_config) (e : string) (g : engine).
Hypothesis Hg : database_engine getenv to_int s (Some e) = Ok g.

Lemma engine_level l : set_to (dc_isolation s) l -> eg_isolation g = l.
Proof.
  intros [Hl Hn]. unfold database_engine in Hg. apply bind_Ok in Hg. destruct Hg as (u & _ & H). apply bind_Ok in H. destruct H as (a & _ & H). inv H. cbn [eg_isolation].
  rewrite Hl. destruct l; [congruence|reflexivity].
Qed.
Lemma engine_driver d : file_setting (dc_dialect s) (getenv (e ++ "DIALECT")%string) d -> d = "postgres" \/ d = "mysql" ->
  u_driver (eg_url g) = driver_of d.
Proof.
  intros Hd Hor. unfold database_engine in Hg. apply bind_Ok in Hg. destruct Hg as (u & Hu & H). apply bind_Ok in H. destruct H as (a & _ & H). inv H. cbn [eg_url].
  unfold database_url in Hu. apply bind_Ok in Hu. destruct Hu as (st & Hst & Hu). apply bind_Ok in Hst. destruct Hst as (po & _ & Hst). injection Hst as <-.
  assert (Ed : or_str (dc_dialect s) (getenv (var e "DIALECT")) = Some d).
  { change (var e "DIALECT") with (e ++ "DIALECT")%string. destruct Hd as [[E Hn]|[[E|E] [E' Hn]]]; rewrite E; cbn; [destruct d; [congruence|reflexivity]|exact E'|exact E']. }
  rewrite Ed in Hu. destruct Hor as [-> | ->]; cbn in Hu; inv Hu; reflexivity.
Qed.
End Connection.

Section Isolated.
Context {G : Type}.
Variable E : env G.
Variable raw : (tname -> list row) -> string -> option (dict string lit) -> list row.
Variables (cfg : sampler_config) (p : plan).
Variables (getenv : string -> option string) (to_int : string -> option Z).
Variables (s : database_config) (e : string) (g : engine).
Hypothesis Hg : database_engine getenv to_int s (Some e) = Ok g.
Variables (m : nat) (committed : nat -> tname -> list row).
Notation sees := (seen_by g m committed).

Lemma sees_some k : exists j, sees k = committed j.
Proof. unfold seen_by. destruct (_ && _)%bool; [eauto|]. destruct (_ && _)%bool; eauto. Qed.

Lemma setup_seen c pcfg w : live_setup E committed raw cfg c p pcfg w -> live_setup E sees raw cfg c p pcfg w.
Proof.
  intros (A1 & A2 & A3 & A4 & A5 & A6 & A7 & A8 & A9 & A10). repeat (split; [assumption || (intros k; destruct (sees_some k) as [j ->]; auto)|]). exact A10.
Qed.

(** ** PostgreSQL *)
Section Postgres.
Hypothesis Hd : file_setting (dc_dialect s) (getenv (e ++ "DIALECT")%string) "postgres".
Hypothesis Hl : set_to (dc_isolation s) "REPEATABLE READ" \/ set_to (dc_isolation s) "SERIALIZABLE".

Lemma sees_first : sees = fun _ => committed 0.
Proof.
  unfold seen_by. rewrite (engine_driver Hg Hd (or_introl eq_refl)). destruct Hl as [H|H]; rewrite (engine_level Hg H); reflexivity.
Qed.
Theorem one_state truncate create gen w :
  sample_live E sees raw cfg p truncate create gen w = sample (reading_from E raw (committed 0)) cfg p truncate create gen w.
Proof. rewrite sees_first. exact (live_constant E (committed 0) raw cfg p truncate create gen w). Qed.

Theorem one_state_consistent c pcfg w truncate create gen w' g' : live_setup E committed raw cfg c p pcfg w ->
  sample_live E sees raw cfg p truncate create gen w = (w', Ok g') ->
  forall n fk n' nd', considered (en_fnm E) pcfg (en_source_schema E) n fk -> copied_pair E cfg c p w w' truncate n fk n' nd' ->
    fk_holds (en_cmp E) fk (rows_of (w_dest w') n') (rows_of (w_dest w') nd').
Proof.
  intros ((A1 & A2 & A3) & Hpl & Hnc & Hout & Hw & Hnil & Hplain & Hsym & Hsc & Hall) Hs n fk n' nd' Hc (t & td & Ht & Htd & Hn & Hnd & G1 & G2 & T1 & T2 & S1 & S2 & U1 & U2).
  rewrite one_state in Hs. set (E' := reading_from E raw (committed 0)) in *. pose proof (Hpl 0) as Hpl'. fold E' in Hpl'.
  assert (He' : env_ok E') by (split; [exact A1|split; [exact A2|exact A3]]).
  assert (Hrun : run_ok E' cfg c p (w_dest w)).
  { unfold writable in Hw. rewrite Hout in Hw. destruct Hw as (W1 & W2 & W3). constructor; [exact Hout|apply Hpl'|exact W1|exact W2|exact W3|exact (planned_distinct He' Hpl' Hnc)]. }
  refine (@consistent1 G E' cfg c p w pcfg truncate create gen w' g' He' Hpl' Hnc Hrun Hnil Hplain Hs Hsym Hall t td fk n n' nd' Ht Htd Hn Hnd Hc _ G1 G2 T1 T2 S1 S2 U1 U2).
  right. exact (Hsc 0 n fk Hc).
Qed.
End Postgres.

(** ** MySQL *)
Section MySQL.
Hypothesis Hd : file_setting (dc_dialect s) (getenv (e ++ "DIALECT")%string) "mysql".
Hypothesis Hl : set_to (dc_isolation s) "REPEATABLE READ".

Lemma sees_later k : m <= k -> sees k = committed m.
Proof.
  intros Hk. unfold seen_by. rewrite (engine_driver Hg Hd (or_intror eq_refl)), (engine_level Hg Hl). cbn. apply Nat.leb_le in Hk. rewrite Hk. reflexivity.
Qed.
Theorem others_consistent c pcfg w truncate create gen w' g' l : live_setup E committed raw cfg c p pcfg w ->
  read_by_others (p_queries p) l -> length l = m ->
  sample_live E sees raw cfg p truncate create gen w = (w', Ok g') ->
  forall n fk n' nd', considered (en_fnm E) pcfg (en_source_schema E) n fk -> copied_pair E cfg c p w w' truncate n fk n' nd' ->
    ~ In n l -> ~ In (fk_dst fk) l ->
    fk_holds (en_cmp E) fk (rows_of (w_dest w') n') (rows_of (w_dest w') nd').
Proof.
  intros Hset Hlr Hlen Hs n fk n' nd' Hc (t & td & Ht & Htd & Hn & Hnd & G1 & G2 & T1 & T2 & S1 & S2 & U1 & U2) L1 L2.
  pose proof Hset as (_ & _ & _ & _ & _ & _ & _ & _ & Hsc & _).
  destruct (setup_seen Hset) as ((A1 & A2 & A3) & Hpl & Hnc & Hout & Hw & Hnil & Hplain & Hsym & _ & Hall).
  destruct (live_planned truncate create gen A1 Hpl Hw) as (moment & Hm & Heq). destruct (Hm w' g' Hs) as [_ Hlat]. clear Hm. rewrite Hs in Heq. symmetry in Heq.
  set (E' := reading_from E raw (at_moments sees moment)) in *. pose proof (mixed_source moment Hpl) as Hpl'. fold E' in Hpl'.
  assert (He' : env_ok E') by (split; [exact A1|split; [exact A2|exact A3]]).
  assert (Hrun : run_ok E' cfg c p (w_dest w)).
  { unfold writable in Hw. rewrite Hout in Hw. destruct Hw as (W1 & W2 & W3). constructor; [exact Hout|apply Hpl'|exact W1|exact W2|exact W3|exact (planned_distinct He' Hpl' Hnc)]. }
  refine (@consistent1 G E' cfg c p w pcfg truncate create gen w' g' He' Hpl' Hnc Hrun Hnil Hplain Heq Hsym Hall t td fk n n' nd' Ht Htd Hn Hnd Hc _ G1 G2 T1 T2 S1 S2 U1 U2).
  right. assert (H1 : has_query (p_queries p) n) by (exists t; auto). assert (H2 : has_query (p_queries p) (fk_dst fk)) by (exists td; auto).
  pose proof (Hlat Hnc l Hlr _ H1 L1) as M1. pose proof (Hlat Hnc l Hlr _ H2 L2) as M2. rewrite Hlen in M1, M2.
  cbn [E' reading_from en_source]. unfold at_moments. rewrite (sees_later M1), (sees_later M2). exact (Hsc m n fk Hc).
Qed.
End MySQL.
End Isolated.
