(** Deciders and small facts used by the examples in Props/PlannerProps.v. *)
From Verif Require Import Model.Base Model.Solver Model.Value Model.Names Model.PlanModel Model.Metadata Model.Planner.
From Verif Require Import Spec.GraphSpec Spec.SchemaSpec Spec.SqlSem Spec.PlannerSpec.
From Verif Require Import Proofs.BaseFacts Proofs.NameFacts Proofs.GraphFacts Proofs.PlannerEdit.
Set Implicit Arguments.
Unset Strict Implicit.
Open Scope string_scope.
Open Scope list_scope.

Section Pop.
Variables (cmpf : cmpop -> value -> value -> bool)
          (textf : string -> option (dict string lit) -> row -> tv)
          (source : tname -> list row) (z : rnd).
(** The samples obtained by evaluating the queries in plan order. *)
Fixpoint run_queries (l : dict string table_query) (acc : dict tname (list row)) : dict tname (list row) :=
  match l with
  | [] => acc
  | (s, q) :: l' =>
      match parse_table_name s, q_stmt q with
      | Some n, Some st => run_queries l' (dset acc n (sem_stmt (plan_env cmpf textf source (fun n => dget_or acc n [])) z st))
      | _, _ => run_queries l' acc
      end
  end.
Definition sample_of (p : plan) (n : tname) : list row := dget_or (run_queries (p_queries p) []) n [].
Definition populatedb (sample : tname -> list row) (p : plan) : bool :=
  forallb (fun sq => match parse_table_name (fst sq), q_stmt (snd sq) with
                     | Some n, Some st => eqb (sample n) (sem_stmt (plan_env cmpf textf source sample) z st)
                     | _, _ => false
                     end) (p_queries p).
Lemma populatedb_true sample p : rnd_ok z -> populatedb sample p = true -> populated cmpf textf source sample p.
Proof.
  intros Hz Hb s q n Hin Hn. unfold populatedb in Hb. rewrite forallb_forall in Hb. specialize (Hb (s, q) Hin). cbn [fst snd] in Hb.
  apply parse_Ok in Hn. unfold parse in Hn. destruct (parse_table_name s) as [n'|]; [|discriminate]. inversion Hn; subst n'.
  destruct (q_stmt q) as [st|]; [|discriminate]. rewrite eqb_true in Hb. exists st, z. split; [reflexivity|]. split; [exact Hz|]. rewrite <- Hb. reflexivity.
Qed.
End Pop.

Lemma named_parse s n : parse_table_name s = Some n -> named s n.
Proof. intros H. apply parse_Ok. unfold parse. rewrite H. reflexivity. Qed.
Lemma before_at {A} (l1 l2 l3 : list A) x y l : l = l1 ++ x :: l2 ++ y :: l3 -> before l x y.
Proof. intros ->. exists l1, l2, l3. reflexivity. Qed.

(** Facts about a configuration, from computations. *)
Section Facts.
Variables (fnm : string -> string -> bool) (cfg : config) (db : list table).
Lemma chosen_by t s p n : In t db -> tb_name t = n -> parse_table_name s = Some n -> In p (c_select cfg ++ c_passthrough cfg) -> fnm s p = true -> chosen fnm cfg db n.
Proof. intros H1 H2 H3 H4 H5. exists n. split; [|apply rt_refl]. exists t, s, p. split; [split; assumption|]. split; [apply named_parse; exact H3|tauto]. Qed.
Lemma chosen_step n t fk : c_include_deps cfg = true -> chosen fnm cfg db n -> In t db -> tb_name t = n -> In fk (tb_fks t) -> chosen fnm cfg db (fk_dst fk).
Proof.
  intros Hd (m & Hm & Hp) Ht Hn Hf. exists m. split; [exact Hm|]. eapply rt_trans; [exact Hp|]. apply rt_step. left. split; [exact Hd|].
  exists t, fk. split; [split; assumption|]. tauto.
Qed.
Lemma active_by n : chosen fnm cfg db n -> ~ In (render n) (c_ignore cfg) -> ~ In (render n) (c_passthrough cfg) -> active fnm cfg db n.
Proof.
  intros Hc H1 H2. split; [exact Hc|]. split.
  - intros (s & Hs & Hn). apply H1. unfold render. destruct Hn as [Hn _]. rewrite <- Hn. exact Hs.
  - intros (s & Hs & Hn). apply H2. unfold render. destruct Hn as [Hn _]. rewrite <- Hn. exact Hs.
Qed.
Lemma considered_by n t fk : chosen fnm cfg db n -> In t db -> tb_name t = n -> In fk (tb_fks t) -> c_ignore_fks cfg = [] -> considered fnm cfg db n fk.
Proof.
  intros Hc Ht Hn Hf Hi. split; [exact Hc|]. left. split; [left; exists t; split; [split; assumption|exact Hf]|].
  intros (a & b & Hin & _). rewrite Hi in Hin. destruct Hin.
Qed.
Lemma target_by s g n : In (s, g) (c_targets cfg) -> parse_table_name s = Some n -> is_target cfg n g.
Proof. intros H1 H2. exists s. split; [exact H1|apply named_parse; exact H2]. Qed.
Lemma edge_by n fk : active fnm cfg db n -> active fnm cfg db (fk_dst fk) -> considered fnm cfg db n fk -> active_edge fnm cfg db n (fk_dst fk).
Proof. intros H1 H2 H3. split; [exact H1|]. split; [exact H2|]. exists fk. tauto. Qed.
Lemma connected_target n g : is_target cfg n g -> active fnm cfg db n -> connected fnm cfg db n.
Proof. intros H1 H2. exists n, g. split; [exact H1|]. split; [exact H2|apply rt_refl]. Qed.
Lemma connected_step n d : connected fnm cfg db n -> active_edge fnm cfg db n d \/ active_edge fnm cfg db d n -> connected fnm cfg db d.
Proof. intros (t & g & H1 & H2 & H3) He. exists t, g. split; [exact H1|]. split; [exact H2|]. eapply rt_trans; [exact H3|]. apply rt_step. exact He. Qed.
Lemma earlier_by p a b l1 l2 l3 : dkeys (p_queries p) = l1 ++ render a :: l2 ++ render b :: l3 ->
  parse_table_name (render a) = Some a -> parse_table_name (render b) = Some b -> earlier p a b.
Proof. intros H1 H2 H3. exists (render a), (render b). split; [apply named_parse; exact H2|]. split; [apply named_parse; exact H3|]. eapply before_at. exact H1. Qed.
Lemma no_target n : ~ In (render n) (dkeys (c_targets cfg)) -> forall g, ~ is_target cfg n g.
Proof. intros Hn g (s & Hs & He). apply Hn. unfold render. destruct He as [He _]. rewrite <- He. apply in_map_iff. exists (s, g). tauto. Qed.
End Facts.
