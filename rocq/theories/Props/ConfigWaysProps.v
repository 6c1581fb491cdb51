(** C136: the way a configuration is written does not matter. *)
From Verif Require Import Model.Base Model.Value Model.PlanModel Model.Metadata Model.Planner Model.Filters Model.Multiply Model.Materialize
  Model.Dest Model.Output Model.Config Model.PlanIO Model.ConfigIO.
From Verif Require Import Spec.ScalarSpec Spec.ConfigDocSpec Spec.ConfigWaysSpec Proofs.ConfigWays.
Open Scope string_scope.
Open Scope list_scope.

(** Every way to write an accepted configuration in full is accepted and means the same. *)
Theorem C136_ways : forall d c d', load_config d = Ok c -> writes d' (doc_config c) -> load_config d' = Ok c.
Proof. exact (fun d c d' H W => config_ways H W). Qed.
(** There is one: the document itself. *)
Theorem C136_plain : forall c, writes (plain (doc_config c)) (doc_config c).
Proof. exact (fun c => plain_writes (doc_config c)). Qed.
Print Assumptions C136_ways.
Print Assumptions C136_plain.

(** A section of a file, its options in another order, flags and numbers in quotation marks. *)
Definition loose_target : data := DMap
  [("amount", DStr "010"); ("sql", DNull); ("all", DStr "No"); ("in", DMap [("id", DList [DStr "7"; DInt 7])]); ("like", DMap []); ("percent", DStr "2.50")].
Example C136_case : exists t, load_target (DMap [("amount", DInt 10); ("percent", DFloat (5#2)); ("in", DMap [("id", DList [DStr "7"; DInt 7])])]) = Ok t /\
  writes loose_target (doc_target t) /\ load_target loose_target = Ok t.
Proof.
  eexists. split; [reflexivity|]. split; [|reflexivity]. constructor.
  - intros k. cbn. repeat (match goal with |- context [eq_dec k ?s] => destruct (eq_dec k s) as [->|?] end; cbn); try tauto; split; discriminate.
  - intros k d x Hd Hx. cbn in Hd. repeat match type of Hd with context [eq_dec k ?s] => destruct (eq_dec k s) as [->|?] end; try discriminate Hd; injection Hd as <-; cbn in Hx; injection Hx as <-.
    + constructor. right. right. right. exists (Decimal.Pos (Decimal.D0 (Decimal.D1 (Decimal.D0 Decimal.Nil)))). repeat split; discriminate.
    + constructor.
    + constructor. right. right. right. exists "No", "no". split; [reflexivity|]. split; [cbn; tauto|]. apply (case_capital "n"%char); [cbn; split; repeat constructor|]. repeat constructor.
    + repeat constructor.
    + repeat constructor.
    + constructor. right. right. right. exists (Decimal.Pos (Decimal.D2 Decimal.Nil)), (Decimal.D5 (Decimal.D0 Decimal.Nil)). repeat split; discriminate.
Qed.
(** The values tables are searched for are not numbers of the configuration: the text "7" is another value. *)
Example C136_values : ~ writes (DMap [("id", DList [DInt 7; DInt 7])]) (table_of (fun l => Items (map literal l)) [("id", [LStr "7"; LInt 7])]).
Proof.
  intros W. apply table_inv in W. destruct W as (m & [= <-] & F). inversion F as [|a b la lb [_ H] _]; subst. apply items_inv in H. destruct H as (l & [= <-] & G).
  inversion G as [|a b la lb L _]; subst. apply value_inv in L. destruct L as [L|(b & L & _)]; discriminate L.
Qed.
(** True and false are 1 and 0 there. *)
Example C136_flags : load_constraint (DMap [("column", DStr "active"); ("operator", DStr "="); ("value", DBool true)]) = Ok (mkConstr "active" OpEq (inl (LInt 1))).
Proof. reflexivity. Qed.
