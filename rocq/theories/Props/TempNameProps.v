(** Properties C31, C32: names of temporary tables (sampler.py TempTableCreator). *)
From Verif Require Import Model.Base Model.TempNames Spec.NameSpec Proofs.TempNamesFacts.
Open Scope string_scope.
Open Scope list_scope.

(** C31: for every [isalnum] that rejects the underscore, every state of the counters and every sequence
    of requests, the names are pairwise distinct. *)
Theorem C31_temp_names_distinct : forall (alnum : ascii -> bool) (counts : dict string nat) (requests : list string),
  alnum "_"%char = false -> NoDup (generate_names alnum counts requests).
Proof. intros alnum counts requests H. exact (generate_names_NoDup H requests counts). Qed.
Print Assumptions C31_temp_names_distinct.

(** One name per request. *)
Theorem C31_one_name_each : forall alnum counts requests,
  length (generate_names alnum counts requests) = length requests.
Proof. intros alnum counts requests. exact (generate_names_length alnum requests counts). Qed.
Print Assumptions C31_one_name_each.

Example C31_hyp : ascii_alnum "_"%char = false. Proof. reflexivity. Qed.
(** Requests chosen to collide: equal names, names equal after dropping '_', names looking like a
    numbered name, empty names. *)
Example C31_case : generate_names ascii_alnum [] ["user"; "us_er"; "user_1"; "user"; "user1"; "__"; "anon"] =
  ["_sbsttr_user"; "_sbsttr_user_1"; "_sbsttr_user1"; "_sbsttr_user_2"; "_sbsttr_user1_1"; "_sbsttr_anon"; "_sbsttr_anon_1"].
Proof. reflexivity. Qed.

(** C32 is false: names that differ only in case are handed out for tables whose names do. *)
Theorem C32_case_insensitive_refuted : exists requests,
  ~ NoDup (map lower (generate_names ascii_alnum [] requests)).
Proof.
  exists ["Users"; "users"]. intros H. inversion H as [|x l Hx _]; subst. apply Hx. left. reflexivity.
Qed.
Print Assumptions C32_case_insensitive_refuted.

(** What holds: distinct whatever the case, if no two requested names have friendly parts that differ
    in case only. *)
Theorem C32_case_insensitive_partial : forall (alnum : ascii -> bool) (counts : dict string nat) (requests : list string),
  alnum "_"%char = false ->
  (forall r r', In r requests -> In r' requests ->
     lower (base_name alnum r) = lower (base_name alnum r') -> base_name alnum r = base_name alnum r') ->
  NoDup (map lower (generate_names alnum counts requests)).
Proof. intros alnum counts requests H. exact (generate_names_fold H counts). Qed.
Print Assumptions C32_case_insensitive_partial.

Example C32_case : NoDup (map lower (generate_names ascii_alnum [] ["User"; "user_1"; "User"])).
Proof.
  apply C32_case_insensitive_partial; [reflexivity|].
  intros r r' Hr Hr' E.
  destruct Hr as [<-|[<-|[<-|[]]]]; destruct Hr' as [<-|[<-|[<-|[]]]]; cbn in E; (reflexivity || discriminate E).
Qed.
