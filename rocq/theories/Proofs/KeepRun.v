(** The statements a run sends, and what they leave of the output. *)
From Verif Require Import Model.Base Model.Value Model.Names Model.PlanModel Model.SqlAlgebra Model.Metadata Model.Planner Model.Filters Model.Multiply Model.Materialize Model.Dest Model.Output Model.Sampler.
From Verif Require Import Spec.OutputSpec Spec.KeepSpec Proofs.BaseFacts Proofs.OutputRows Proofs.OutputMain.
From Verif Require Import Model.Dest.
Set Implicit Arguments. Unset Strict Implicit.
Open Scope list_scope.

Section Does.
Variable dflt : tname -> string -> list row -> row -> value.
Variable accepts : dest -> event -> bool.
Variable P : event -> Prop.
Definition does {E A} (Q : A -> Prop) (m : io E A) : Prop :=
  forall w w' r, m w = (w', r) -> (exists tr, trace w' = trace w ++ tr /\ replay dflt (w_dest w) tr (w_dest w') /\ Forall P tr) /\ forall a, r = Ok a -> Q a.
Lemma does_lift {E A} (Q : A -> Prop) (r : res E A) : (forall a, r = Ok a -> Q a) -> does Q (lift r).
Proof. intros HQ w w' r' H. inv H. split; [|exact HQ]. exists []. rewrite app_nil_r. split; [reflexivity|]. split; constructor. Qed.
Lemma does_any {E A} (r : res E A) : does (fun _ => True) (lift r).
Proof. apply does_lift. auto. Qed.
Lemma does_ret {E A} (Q : A -> Prop) (a : A) : Q a -> does Q (@ret E A a).
Proof. intros H. apply (@does_lift E A Q (Ok a)). intros b Hb. inv Hb. exact H. Qed.
Lemma does_reading {E A} (f : dest -> res E A) : does (fun _ => True) (reading f).
Proof. intros w w' r' H. inv H. split; [|auto]. exists []. rewrite app_nil_r. split; [reflexivity|]. split; constructor. Qed.
Lemma does_send {E} (err : E) e : P e -> does (fun _ => True) (send dflt accepts err e).
Proof.
  intros Hp w w' r H. split; [|auto]. apply send_inv in H. destruct H as [(_ & Hx & Ht)|(_ & ->)].
  - exists [e]. split; [exact Ht|]. split; [now apply replay_one|]. repeat constructor. exact Hp.
  - exists []. rewrite app_nil_r. split; [reflexivity|]. split; constructor.
Qed.
Lemma does_bind {E A B} (Q : A -> Prop) (R : B -> Prop) (m : io E A) (k : A -> io E B) : does Q m -> (forall a, Q a -> does R (k a)) -> does R (bind_io m k).
Proof.
  intros Hm Hk w w' r H. apply bind_io_inv in H. destruct H as [(w1 & a & H1 & H2)|(e & H1 & ->)].
  - destruct (Hm _ _ _ H1) as [(t1 & E1 & R1 & F1) HQ]. destruct (Hk a (HQ a eq_refl) _ _ _ H2) as [(t2 & E2 & R2 & F2) HR]. split; [|exact HR]. exists (t1 ++ t2).
    split; [rewrite E2, E1; now rewrite app_assoc|]. split; [eapply replay_app; eassumption|]. apply Forall_app. auto.
  - destruct (Hm _ _ _ H1) as [Hd _]. split; [exact Hd|discriminate].
Qed.
Lemma does_for {E S A} (f : S -> A -> io E S) : (forall s a, does (fun _ => True) (f s a)) -> forall l s, does (fun _ => True) (for_io f l s).
Proof. intros Hf. induction l as [|a l IH]; intros s; cbn [for_io]; [apply does_ret; exact I|]. eapply does_bind; [apply Hf|]. intros s' _. apply IH. Qed.
End Does.

Section Run.
Context {G : Type}.
Variable E : env G.
Variable cfg : sampler_config.
Variable p : plan.
(** The statements a run with these options may send. *)
Definition allowed (truncate create : bool) (e : event) : Prop :=
  match e with
  | EvDelete _ => truncate = true
  | EvCreate _ => create = true
  | EvInsert _ how _ => match sc_output cfg with ToDatabase c => match how with Update _ _ => oc_strategy c = SReplace | _ => True end | ToDirectory _ => False end
  | EvSetval _ _ => exists c, sc_output cfg = ToDatabase c
  | EvOpen _ | EvLine _ _ => exists dir, sc_output cfg = ToDirectory dir
  end.
Definition fits (o : output) : Prop :=
  match o with OutDirectory _ => exists dir, sc_output cfg = ToDirectory dir | OutDatabase c _ => sc_output cfg = ToDatabase c end.
Variables truncate create : bool.
Notation P := (allowed truncate create).
Notation does := (does (en_dflt E) P).

Lemma insert_allowed c cs t cols how : conflict_insert (oc_dialect c) cs t cols = Ok how -> (cs = SSkip \/ cs = oc_strategy c) -> match how with Update _ _ => oc_strategy c = SReplace | _ => True end.
Proof.
  unfold conflict_insert. intros H Hcs. destruct (is_nil (tb_pk t)).
  - cbn [bind] in H. destruct (oc_dialect c); inv H; exact I.
  - destruct (forM remove_key (tb_pk t) (set_of cols)) as [non_pk|]; [|discriminate]. cbn [bind] in H.
    destruct cs; [|destruct (is_nil non_pk)|]; destruct (oc_dialect c); inv H; try exact I; destruct Hcs as [F|F]; try discriminate; symmetry; exact F.
Qed.
Lemma output_does o ps n chain cols rows m mult g : fits o -> does (fun _ => True) (output_result_set E o ps n chain cols rows m mult g).
Proof.
  intros Hf. destruct o as [dir|c o]; cbn [output_result_set fits] in *.
  - unfold directory_output. eapply (does_bind (Q := fun _ => True)); [apply does_send; exact Hf|]. intros u _. apply does_for. intros s a. eapply (does_bind (Q := fun _ => True)); [apply does_any|].
    intros [out g'] _. eapply (does_bind (Q := fun _ => True)); [apply does_send; exact Hf|]. intros v _. apply does_ret. exact I.
  - unfold database_output. assert (Hfl : forall cs t cs' b, cs = SSkip \/ cs = oc_strategy c -> does (fun _ => True) (flush (en_dflt E) (en_accepts E) c cs t cs' b)).
    { intros cs t cs' b Hcs. unfold flush. eapply (does_bind (Q := fun how => match how with Update _ _ => oc_strategy c = SReplace | _ => True end)); [apply does_lift|].
      - intros how Hh. exact (insert_allowed Hh Hcs).
      - intros how Hh. apply does_send. cbn. rewrite Hf. exact Hh. }
    eapply (does_bind (Q := fun _ => True)); [apply does_any|]. intros n' _. eapply (does_bind (Q := fun _ => True)); [apply does_any|]. intros tm _. destruct (negb _); [apply does_any|].
    eapply (does_bind (Q := fun _ => True)). { destruct (is_nil _); [apply does_ret; exact I|]. eapply (does_bind (Q := fun _ => True)); [apply does_any|]. intros. apply does_ret. exact I. }
    intros [chain' cols'] _. set (cs := if (oc_merge c && _)%bool then _ else _). assert (Hcs : cs = SSkip \/ cs = oc_strategy c) by (unfold cs; destruct (oc_merge c && _)%bool; auto). eapply (does_bind (Q := fun _ => True)).
    { apply does_for. intros s a. unfold loop_body. eapply (does_bind (Q := fun _ => True)); [apply does_any|]. intros [out g'] _. eapply (does_bind (Q := fun _ => True)).
      { destruct (match needs_updating c with true => _ | false => _ end); [|apply does_ret; exact I]. eapply (does_bind (Q := fun _ => True)); [apply does_any|]. intros. apply does_any. }
      intros mx _. destruct (Nat.ltb _ _); [|apply does_ret; exact I]. eapply (does_bind (Q := fun _ => True)); [apply Hfl; exact Hcs|]. intros. apply does_ret. exact I. }
    intros s _. eapply (does_bind (Q := fun _ => True)). { destruct (is_nil _); [apply does_ret; exact I|apply Hfl; exact Hcs]. } intros u _. eapply (does_bind (Q := fun _ => True)); [|intros; apply does_ret; exact I].
    assert (Hset : forall v, P (EvSetval n' v)) by (intros v; exists c; exact Hf).
    unfold autoincrement_update. destruct (needs_updating c); [|apply does_ret; exact I]. destruct (en_autoinc E n') as [ac|]; [|apply does_ret; exact I].
    destruct (lp_max s); try (apply does_ret; exact I); try apply does_any. destruct (en_currval E n') as [cv|]; [destruct (z <? cv)%Z; [eapply (does_bind (Q := fun _ => True)); [apply does_reading|intros [sm|] _; [apply does_ret; exact I|apply does_send; apply Hset]]|]|]; apply does_send; apply Hset.
Qed.
Lemma sample_does g : does (fun _ => True) (sample E cfg p truncate create g).
Proof.
  unfold sample. eapply (does_bind (Q := fun _ => True)); [apply does_any|]. intros ms _. eapply (does_bind (Q := fun _ => True)); [apply does_any|]. intros u _. eapply (does_bind (Q := fun _ => True)); [apply does_any|].
  intros mults _. eapply (does_bind (Q := fits)). { unfold open_output. destruct (sc_output cfg) as [dir|c] eqn:Eo; [apply does_ret; exists dir; exact Eo|]. eapply (does_bind (Q := fun _ => True)); [apply does_reading|]. intros. apply does_ret. exact Eo. }
  intros o Ho. eapply (does_bind (Q := fits)).
  { destruct create eqn:Ec; [|apply does_ret; exact Ho]. destruct o as [dir|c o]; cbn [create_tables]; [apply does_ret; exact Ho|]. eapply (does_bind (Q := fun _ => True)); [|intros; apply does_ret; exact Ho].
    unfold db_create. eapply (does_bind (Q := fun _ => True)); [apply does_any|]. intros [objs cr] _. eapply (does_bind (Q := fun _ => True)); [apply does_any|]. intros ts _. destruct (is_nil ts); [apply does_ret; exact I|].
    eapply (does_bind (Q := fun _ => True)); [apply does_send; reflexivity|]. intros. apply does_ret. exact I. }
  intros o' Ho'. eapply (does_bind (Q := fun _ => True)); [apply does_any|]. intros order _. eapply (does_bind (Q := fun _ => True)).
  { destruct truncate eqn:Et; [|apply does_ret; exact I]. destruct o' as [dir|c o']; cbn [truncate_tables]; [apply does_ret; exact I|]. unfold db_truncate. eapply (does_bind (Q := fun _ => True)); [apply does_any|].
    intros ord _. apply does_for. intros s a. apply does_send. reflexivity. }
  intros u' _. eapply (does_bind (Q := fits)).
  { destruct o' as [dir|c o']; cbn [prepare]; [apply does_ret; exact Ho'|]. eapply (does_bind (Q := fun _ => True)); [apply does_reading|]. intros. apply does_ret. exact Ho'. }
  intros o2 Ho2. eapply (does_bind (Q := fun _ => True)); [apply does_any|]. intros compact _. eapply (does_bind (Q := fun _ => True)); [apply does_any|]. intros st _.
  unfold copy_results. apply does_for. intros s a. unfold copy_one. eapply (does_bind (Q := fun _ => True)); [apply does_any|]. intros [co|] _; [|apply does_ret; exact I].
  eapply (does_bind (Q := fun _ => True)); [apply does_any|]. intros [chain cols] _. apply output_does. exact Ho2.
Qed.
End Run.

(** Rows that are there stay. *)
Lemma added_refl X l : added_to X l l.
Proof. exists l, []. rewrite app_nil_r. auto. Qed.
Lemma added_trans X a b c : added_to X a b -> added_to X b c -> added_to X a c.
Proof.
  intros (k1 & m1 & -> & L1 & E1) (k2 & m2 & -> & L2 & E2). rewrite app_length in L2. exists (firstn (length k1) k2), (skipn (length k1) k2 ++ m2).
  split; [rewrite app_assoc, firstn_skipn; reflexivity|]. split; [rewrite firstn_length; lia|]. intros H. rewrite (E2 H), firstn_app, Nat.sub_diag, firstn_all, firstn_O, app_nil_r. exact (E1 H).
Qed.
Lemma added_weaken (X Y : Prop) a b : (X -> Y) -> added_to X a b -> added_to Y a b.
Proof. intros H (k & m & A & B & C). exists k, m. split; [exact A|]. split; [exact B|]. intros Hy. apply C. intros x. exact (Hy (H x)). Qed.
Lemma update_first_length all ks cs r : forall after_ before_ l, update_first all ks cs r before_ after_ = Some l -> length l = length (before_ ++ after_).
Proof.
  induction after_ as [|o a IH]; intros b l H; [discriminate|]. cbn [update_first] in H. destruct (clashes ks r o).
  - destruct (existsb _ _); [discriminate|]. inv H. rewrite !app_length. reflexivity.
  - rewrite (IH _ _ H), <- app_assoc. reflexivity.
Qed.
Definition overwrites (how : on_conflict) : Prop := match how with Update _ _ => True | _ => False end.
Lemma insert_row_added t how l r l' : insert_row t how l r = Some l' -> added_to (overwrites how) l l'.
Proof.
  assert (Happ : forall X, added_to X l (l ++ [r])) by (intros X; exists l, [r]; auto).
  unfold insert_row. destruct how as [| |any cs].
  - destruct (existsb _ _); [discriminate|]. intros H. inv H. apply Happ.
  - destruct (existsb _ _); intros H; inv H; [apply added_refl|apply Happ].
  - destruct (existsb (clashes (if any then table_keys t else [tb_pk t]) r) l).
    + intros H. apply update_first_length in H. exists l', []. rewrite app_nil_r. split; [reflexivity|]. split; [exact H|]. intros F. elim F. exact I.
    + destruct (existsb _ _); [discriminate|]. intros H. inv H. apply Happ.
Qed.
Lemma insert_rows_added dflt t how rs : forall l l', insert_rows dflt t how l rs = Some l' -> added_to (overwrites how) l l'.
Proof.
  induction rs as [|r rs IH]; intros l l' H; cbn [insert_rows] in H; [inv H; apply added_refl|]. destruct (insert_row t how l _) as [l1|] eqn:E1; [|discriminate].
  exact (added_trans (insert_row_added E1) (IH _ _ H)).
Qed.
Lemma replay_added dflt (X : Prop) tr : forall d d', replay dflt d tr d' -> (forall e, In e tr -> match e with EvDelete _ => False | EvInsert _ how _ => overwrites how -> X | _ => True end) ->
  forall n, added_to X (rows_of d n) (rows_of d' n).
Proof.
  induction tr as [|e tr IH]; intros d d' Hr He n; inversion Hr as [|d0 e0 d1 tr0 d2 Hx Hr']; subst; [apply added_refl|].
  refine (added_trans _ (IH _ _ Hr' (fun e' Hin => He e' (or_intror Hin)) n)). specialize (He e (or_introl eq_refl)). clear IH Hr Hr'.
  destruct e as [ts|m|m how rs|m v|q|q r]; cbn in Hx; try destruct He; try (inv Hx; apply added_refl).
  - destruct (find_table _ m); [|discriminate]. destruct (insert_rows dflt t how (rows_of d m) rs) as [l|] eqn:Ei; [|discriminate]. inv Hx.
    destruct (eq_dec n m) as [->|Hne]; [rewrite rows_with_same; exact (added_weaken He (insert_rows_added Ei))|rewrite rows_with_other by exact Hne; apply added_refl].
  - destruct (serial_table _ m) as [m'|]; [|discriminate]. inv Hx. unfold rows_of. rewrite (proj1 (proj2 (set_seq_same d m' v))). apply added_refl.
Qed.
