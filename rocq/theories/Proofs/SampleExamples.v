(** The concrete cases used in Props/SampleProps.v: two tables, [s.p] and its child [s.c]. *)
From Coq Require Import Lia.
From Verif Require Import Model.Base Model.Solver Model.Value Model.Names Model.PlanModel Model.SqlAlgebra Model.Metadata Model.Materialize.
From Verif Require Import Spec.GraphSpec Spec.SchemaSpec Spec.SqlSem Spec.PlannerSpec Spec.SampleSpec.
From Verif Require Import Proofs.BaseFacts Proofs.NameFacts Proofs.PlannerExamples Proofs.SampleFinal.
Open Scope string_scope.
Open Scope list_scope.

Definition tp : tname := ("s", "p").
Definition tc : tname := ("s", "c").
Definition p_tab : table := mkTable tp ["id"; "name"] ["id"] [] [].
Definition c_fk : fkey := mkFK ["pid"] tp ["id"].
Definition c_tab : table := mkTable tc ["id"; "pid"] ["id"] [c_fk] [].
Definition xms : meta := [(tp, mkMeta p_tab [] []); (tc, mkMeta c_tab [c_fk] [])].
Definition xsource (n : tname) : list row :=
  if eqb n tp then [ [("id", VInt 9); ("name", VStr "x")]; [("id", VInt 4); ("name", VStr "y")]; [("id", VInt 7); ("name", VStr "z")] ]
  else if eqb n tc then [ [("id", VInt 1); ("pid", VInt 4)]; [("id", VInt 2); ("pid", VInt 9)]; [("id", VInt 3); ("pid", VNull)]; [("id", VInt 5); ("pid", VInt 7)] ]
  else [].
(** p: id > 5; c: the rows whose parent is in the sample of p, or all *)
Definition q_p : table_query :=
  mkQuery None None (Some (SSelect (Sel None (mkIdent "s" "p" false) (Some (WOp OpGt "id" (LInt 5))) None None false))).
Definition q_c : table_query :=
  mkQuery None None (Some (SSelect (Sel None (mkIdent "s" "c" false) None None (Some [mkJoin (mkIdent "s" "p" true) ["pid"] ["id"] false]) false))).
Definition xqueries : dict string table_query := [("s.c", q_c); ("s.p", q_p)].
Definition xcompact : dict tname (list string) := [(tp, ["id"]); (tc, ["id"])].
Definition xcmp (op : cmpop) (a b : value) : bool :=
  match op, a, b with
  | CEq, VInt i, VInt j => Z.eqb i j
  | CGt, VInt i, VInt j => Z.ltb j i
  | _, _, _ => false
  end.
Definition xtext (_ : string) (_ : option (dict string lit)) (_ : row) : tv := F3.
Definition xraw (_ : string) (_ : option (dict string lit)) : list row := [].
Definition xraw_cols (_ : string) (_ : option (dict string lit)) : list string := [].
Definition xz (_ : phase) (_ : tname) : rnd := mkRnd (fun _ _ _ => 0%Q) (fun l => l).
Definition xkey (ks : list value) : Z := match ks with VInt i :: _ => i | _ => 0%Z end.
Definition xrank (_ : phase) (_ : tname) : list (list value) -> list nat := rank_by xkey.
Definition idl (l : list tname) : list tname := l.

Lemma xz_ok p n : rnd_ok (xz p n).
Proof. split; [intros; split; [apply Qle_refl|reflexivity]|intros; apply Permutation_refl]. Qed.
Lemma idl_ok : any_order idl.
Proof. intros l. apply Permutation_refl. Qed.

Lemma xqueries_In s q n : In (s, q) xqueries -> named s n -> (s = "s.c" /\ q = q_c /\ n = tc) \/ (s = "s.p" /\ q = q_p /\ n = tp).
Proof.
  intros [E|[E|[]]] Hn; inversion E; subst.
  - left. split; [reflexivity|]. split; [reflexivity|]. apply (proj2 (parse_named _ _)) in Hn. vm_compute in Hn. inversion Hn. reflexivity.
  - right. split; [reflexivity|]. split; [reflexivity|]. apply (proj2 (parse_named _ _)) in Hn. vm_compute in Hn. inversion Hn. reflexivity.
Qed.
Lemma xreads n d : reads_sample xqueries n d -> n = tc /\ d = tp.
Proof.
  intros (s & q & id & Hin & Hn & Hid & Hs & Hd). destruct (xqueries_In _ _ _ Hin Hn) as [(-> & -> & ->)|(-> & -> & ->)]; cbn in Hid.
  - destruct Hid as [<-|[<-|[]]]; [discriminate|]. split; [reflexivity|]. symmetry. exact Hd.
  - destruct Hid as [<-|[]]. discriminate.
Qed.
Lemma x_has_p : has_query xqueries tp.
Proof. exists "s.p". split; [apply named_parse; reflexivity|right; left; reflexivity]. Qed.
Lemma x_governs n c d dc : governs xms xcompact n c d dc -> n = tc /\ c = "pid" /\ d = tp /\ dc = "id".
Proof.
  intros (m & fk & Hm & Hfk & Hd & Hc & _). destruct Hm as [E|[E|[]]]; inversion E; subst; cbn in Hfk; [destruct Hfk|].
  destruct Hfk as [<-|[]]. cbn in Hc. destruct Hc as [E'|[]]. inversion E'. tauto.
Qed.

Ltac nd := vm_compute; repeat (apply NoDup_cons; [cbn; intuition congruence|]); apply NoDup_nil.
Lemma x_runnable reopen : runnable id_column reopen xms xsource xcompact xqueries.
Proof.
  constructor.
  - split; [nd|]. intros n m [E|[E|[]]]; inversion E; reflexivity.
  - intros n m [E|[E|[]]] _; inversion E; subst; nd.
  - intros n [<-|[<-|[]]]; nd.
  - split; [nd|]. intros s [<-|[<-|[]]]; [exists tc|exists tp]; apply named_parse; reflexivity.
  - intros s q n Hin Hn. destruct (xqueries_In _ _ _ Hin Hn) as [(-> & -> & ->)|(-> & -> & ->)]; (split; [reflexivity|]); eexists; (split; [reflexivity|]); split; reflexivity.
  - intros s q st [E|[E|[]]] Hs; inversion E; subst; inversion Hs; subst; discriminate.
  - intros s q n Hin Hn. destruct (xqueries_In _ _ _ Hin Hn) as [(-> & -> & ->)|(-> & -> & ->)].
    + split; [right; left; reflexivity|]. eexists. split; [reflexivity|]. split.
      * cbn. constructor; [|constructor]. split; [discriminate|reflexivity].
      * exists ["id"; "pid"]. split; [reflexivity|]. split; [exact I|]. split; [|exact I]. constructor; [|constructor]. split; [intros x [<-|[]]; right; left; reflexivity|].
        exists ["id"; "name"]. split; [reflexivity|]. intros x [<-|[]]. left. reflexivity.
    + split; [left; reflexivity|]. eexists. split; [reflexivity|]. split.
      * cbn. repeat constructor.
      * exists ["id"; "name"]. split; [reflexivity|]. split; [exact I|]. split; [exact I|]. left. reflexivity.
  - intros n d H. destruct (xreads _ _ H) as [-> ->]. exact x_has_p.
  - intros n H. assert (Hg : forall a b, path (reads_sample xqueries) a b -> a = tc /\ b = tp).
    { induction 1 as [a b H1|a b c H1 [IH1 IH2] H2 [IH3 IH4]]; [exact (xreads _ _ H1)|]. split; congruence. }
    destruct (Hg _ _ H) as [-> E]. discriminate.
  - split; [nd|]. split; [intros n cs [E|[E|[]]]; inversion E; discriminate|]. split.
    + intros n m [E|[E|[]]]; inversion E; subst; (split; [nd|]);
      (split; [intros [H|[H|[]]]; discriminate|intros x [<-|[]]; left; reflexivity]).
    + intros n c d dc H. destruct (x_governs _ _ _ _ H) as (_ & _ & _ & ->). discriminate.
  - intros n c d dc _ H. destruct (x_governs _ _ _ _ H) as (-> & -> & -> & ->). split; [exact x_has_p|]. exists (mkMeta p_tab [] []). split; left; reflexivity.
  - intros _ n m fk a b a' b' [E|[E|[]]] Hfk H1 H2 _ _; inversion E; subst; cbn in Hfk; [destruct Hfk|]. destruct Hfk as [<-|[]]. cbn in H1, H2.
    destruct H1 as [E1|[]]; destruct H2 as [E2|[]]. congruence.
Qed.

Lemma x_no_self : no_self_references xms xcompact xqueries.
Proof. intros n c dc _ H. destruct (x_governs _ _ _ _ H) as (-> & _ & E & _). discriminate. Qed.
Lemma x_random_free : plan_random_free xqueries.
Proof. intros s q st [E|[E|[]]] Hs; inversion E; subst; inversion Hs; subst; cbn; tauto. Qed.

Definition xrun (reopen : bool) (compact : dict tname (list string)) (start : Z) (queries : dict string table_query) :=
  extract xsource xcmp xtext xraw xraw_cols xz xrank reopen xms compact start idl queries ["s.p"; "s.zz"; "s.c"].

(** Composite key: p2(a, b) with key (a, b); c2.(pa, pb) -> p2.(a, b); column b is compacted. *)
Definition tp2 : tname := ("s", "p2").
Definition tc2 : tname := ("s", "c2").
Definition c2_fk : fkey := mkFK ["pa"; "pb"] tp2 ["a"; "b"].
Definition ms2 : meta :=
  [(tp2, mkMeta (mkTable tp2 ["a"; "b"] ["a"; "b"] [] []) [] []);
   (tc2, mkMeta (mkTable tc2 ["id"; "pa"; "pb"] ["id"] [c2_fk] []) [c2_fk] [])].
Definition source2 (n : tname) : list row :=
  if eqb n tp2 then [ [("a", VInt 1); ("b", VInt 5)]; [("a", VInt 2); ("b", VInt 5)] ]
  else if eqb n tc2 then [ [("id", VInt 10); ("pa", VInt 1); ("pb", VInt 5)] ]
  else [].
Definition all_of (t : string) : table_query :=
  mkQuery None None (Some (SSelect (Sel None (mkIdent "s" t false) None None None false))).
Definition queries2 : dict string table_query := [("s.p2", all_of "p2"); ("s.c2", all_of "c2")].
Definition run2 (reopen : bool) (compact : dict tname (list string)) :=
  extract source2 xcmp xtext xraw xraw_cols xz xrank reopen ms2 compact 1 idl queries2 ["s.p2"; "s.c2"].

(** A table referring to itself: e(id, boss -> e.id). *)
Definition te : tname := ("s", "e").
Definition e_fk : fkey := mkFK ["boss"] te ["id"].
Definition ms3 : meta := [(te, mkMeta (mkTable te ["id"; "boss"] ["id"] [e_fk] []) [e_fk] [])].
Definition source3 (n : tname) : list row :=
  if eqb n te then [ [("id", VInt 3); ("boss", VNull)]; [("id", VInt 8); ("boss", VInt 3)] ] else [].
Definition run3 (reopen : bool) :=
  extract source3 xcmp xtext xraw xraw_cols xz xrank reopen ms3 [(te, ["id"])] 1 idl [("s.e", all_of "e")] ["s.e"].
Definition rows_of {A} (r : xres (A * list copied)) : option (list (list row)) :=
  match r with Ok (_, outs) => Some (map co_rows outs) | Err _ => None end.
