(** The offsets of merge mode. *)
From Coq Require Import Lia.
From Verif Require Import Model.Base Model.Value Model.Names Model.PlanModel Model.Solver Model.PlanBuild Model.Metadata Model.Filters Model.Multiply Model.Materialize Model.Dest Model.Output Model.Sampler.
From Verif Require Import Spec.GraphSpec Spec.SchemaSpec Spec.FilterSpec Spec.OutputSpec Spec.RunSpec.
From Verif Require Import Proofs.BaseFacts Proofs.NameFacts Proofs.MetadataFacts Proofs.OutputRows Proofs.OutputRun Proofs.OutputDb Proofs.OutputCreate Proofs.OutputCopy Proofs.OutputSample Proofs.OutputMain Proofs.OutputColumn.
Set Implicit Arguments. Unset Strict Implicit.
Open Scope list_scope.

Lemma max_loop k : forall rows m0,
  match fold_left (fun m r => match rget r k with VInt z => Some (match m with Some y => Z.max y z | None => z end) | _ => m end) rows m0 with
  | Some z => (m0 = Some z \/ exists r, In r rows /\ rget r k = VInt z) /\ (forall y, m0 = Some y -> (y <= z)%Z) /\ (forall r y, In r rows -> rget r k = VInt y -> (y <= z)%Z)
  | None => m0 = None /\ forall r y, In r rows -> rget r k <> VInt y
  end.
Proof.
  induction rows as [|r rows IH]; intros m0; cbn [fold_left].
  - destruct m0 as [z|]; [|split; [reflexivity|intros r y []]]. split; [now left|]. split; [intros y Hy; injection Hy as ->; lia|intros r y []].
  - match goal with |- context [fold_left _ rows ?m] => specialize (IH m); set (m1 := m) in * end. destruct (fold_left _ rows m1) as [z|].
    + destruct IH as (A & B & C). split; [|split].
      * destruct A as [A|(x & Hx & A)]; [|right; exists x; split; [now right|exact A]]. unfold m1 in A.
        destruct (rget r k) eqn:Er; try (now left). destruct m0 as [y|].
        -- injection A as A. destruct (Z.max_spec y z0) as [[_ M]|[_ M]]; rewrite M in A; subst.
           ++ right. exists r. split; [now left|exact Er].
           ++ now left.
        -- injection A as ->. right. exists r. split; [now left|exact Er].
      * intros y ->. unfold m1 in B. destruct (rget r k); try (apply B; reflexivity). specialize (B _ eq_refl). lia.
      * intros x y [->|Hx] Hy; [|exact (C x y Hx Hy)]. unfold m1 in B. rewrite Hy in B. destruct m0 as [y0|]; specialize (B _ eq_refl); lia.
    + destruct IH as [A B]. unfold m1 in A. split; [destruct (rget r k); congruence|]. intros x y [->|Hx] Hy; [rewrite Hy in A; discriminate|exact (B x y Hx Hy)].
Qed.

Lemma max_value_spec rows k : match max_value rows k with
  | Some z => largest rows k z
  | None => forall r y, In r rows -> rget r k <> VInt y
  end.
Proof.
  assert (H := max_loop k rows None). unfold max_value. destruct (fold_left _ rows None) as [z|]; [|exact (proj2 H)].
  destruct H as ([F|A] & _ & C); [discriminate|]. split; assumption.
Qed.
Lemma largest_fun rows k a b : largest rows k a -> largest rows k b -> a = b.
Proof. intros [(r & Hr & Ha) A] [(r' & Hr' & Hb) B]. specialize (A _ _ Hr' Hb). specialize (B _ _ Hr Ha). lia. Qed.
Lemma max_value_largest rows k z : max_value rows k = Some z <-> largest rows k z.
Proof.
  assert (H := max_value_spec rows k). destruct (max_value rows k) as [y|].
  - split; [intros E; injection E as ->; exact H|]. intros Hz. now rewrite (largest_fun H Hz).
  - split; [discriminate|]. intros [(r & Hr & E) _]. elim (H r z Hr E).
Qed.

Section Merge.
Variable resub : string -> string -> string -> string.
Variable is_int : tname -> string -> bool.
Variable c : db_config.
Notation rules := (oc_remap c).
Notation to := (lands resub rules).
Variable d : dest.
Variable passthrough : list string.

(** The key of a destination table that is shifted. *)
Definition merge_key (n' : tname) (t : table) : option string :=
  match tb_pk t with [k] => if is_int n' k then Some k else None | _ => None end.
Definition key_max (n' : tname) (t : table) : option Z :=
  match merge_key n' t with Some k => max_value (rows_of d n') k | None => None end.
Definition key_offsets (n' : tname) (t : table) : dict string Z :=
  match merge_key n' t with
  | Some k => match max_value (rows_of d n') k with Some v => [(k, (v + 1)%Z)] | None => [] end
  | None => []
  end.

Lemma to_parse t n' : to t n' <-> exists n, parse_name t = Ok n /\ remap_table resub c n = Ok n'.
Proof.
  unfold parse_name. split.
  - intros (n & Hn & Hg). exists n. rewrite (proj2 (parse_named t n) Hn). split; [reflexivity|]. apply remap_goes. exact Hg.
  - intros (n & Hp & Hr). exists n. destruct (parse_table_name t) as [n0|] eqn:Ep; [|discriminate]. injection Hp as ->. split; [apply parse_named; exact Ep|apply remap_goes; exact Hr].
Qed.

Definition keys_step o := (fun (acc : dict tname (dict string Z) * dict string (option Z)) table =>
      let '(offs, maxes) := acc in
      if memb table (set_of passthrough) then Ok acc
      else
        let* n := parse_name table in
        let* n' := remap_table resub c n in
        let offs := dset offs n' [] in
        let* m := find_key (ou_meta o) n' in
        match tb_pk (tm_table m) with
        | [c] =>
            if is_int n' c then
              let mx := max_value (rows_of d n') c in
              Ok (match mx with Some v => dset offs n' (dset [] c (v + 1)%Z) | None => offs end, dset maxes table mx)
            else Ok (offs, maxes)
        | _ => Ok (offs, maxes)
        end).

Lemma keys_step_Ok o offs maxes t offs' maxes' : keys_step o (offs, maxes) t = Ok (offs', maxes') -> ~ In t passthrough ->
  exists n' m, to t n' /\ dget (ou_meta o) n' = Some m /\ (forall x, dget offs' x = if eq_dec x n' then Some (key_offsets n' (tm_table m)) else dget offs x) /\
    (forall x, dget_or maxes' x None = if eq_dec x t then match merge_key n' (tm_table m) with Some _ => key_max n' (tm_table m) | None => dget_or maxes x None end else dget_or maxes x None).
Proof.
  intros H Hp. unfold keys_step in H. destruct (memb t (set_of passthrough)) eqn:Em; [apply memb_true in Em; apply (proj1 (set_of_In _ _)) in Em; contradiction|].
  apply bind_Ok in H. destruct H as (n & Hn & H). apply bind_Ok in H. destruct H as (n' & Hn' & H). apply bind_Ok in H. destruct H as (m & Hm & H). unfold find_key in Hm. apply dfind_Ok in Hm.
  exists n', m. split; [apply to_parse; eauto|]. split; [exact Hm|]. unfold key_max, key_offsets, merge_key.
  assert (Hd : forall (o1 o2 : dict string Z) x, dget (dset (dset offs n' o1) n' o2) x = if eq_dec x n' then Some o2 else dget offs x).
  { intros o1 o2 x. destruct (eq_dec x n') as [->|Hne]; [apply dget_dset_eq|]. rewrite !dget_dset_ne by congruence. reflexivity. }
  assert (Hd1 : forall (o1 : dict string Z) x, dget (dset offs n' o1) x = if eq_dec x n' then Some o1 else dget offs x).
  { intros o1 x. destruct (eq_dec x n') as [->|Hne]; [apply dget_dset_eq|]. rewrite !dget_dset_ne by congruence. reflexivity. }
  destruct (tb_pk (tm_table m)) as [|k [|k2 ks]].
  - injection H as <- <-. split; [apply Hd1|]. intros x. destruct (eq_dec x t); reflexivity.
  - destruct (is_int n' k).
    + injection H as <- <-. split.
      * destruct (max_value (rows_of d n') k) as [v|]; [apply Hd|apply Hd1].
      * intros x. unfold dget_or. destruct (eq_dec x t) as [->|Hne]; [now rewrite dget_dset_eq|]. rewrite dget_dset_ne by congruence. reflexivity.
    + injection H as <- <-. split; [apply Hd1|]. intros x. destruct (eq_dec x t); reflexivity.
  - injection H as <- <-. split; [apply Hd1|]. intros x. destruct (eq_dec x t); reflexivity.
Qed.

Lemma keys_loop o : forall qs offs maxes offs' maxes',
  forM (keys_step o) qs (offs, maxes) = Ok (offs', maxes') -> NoDup qs ->
  (forall a b n', In a qs -> In b qs -> to a n' -> to b n' -> a = b) ->
  (forall t n', In t qs -> ~ In t passthrough -> to t n' -> exists m, dget (ou_meta o) n' = Some m /\
     dget offs' n' = Some (key_offsets n' (tm_table m)) /\ (dget_or maxes t None = None -> dget_or maxes' t None = key_max n' (tm_table m))) /\
  (forall t, In t qs -> ~ In t passthrough -> exists n', to t n') /\
  (forall t, ~ In t qs \/ In t passthrough -> dget_or maxes' t None = dget_or maxes t None) /\
  (forall n', (forall t, In t qs -> ~ In t passthrough -> ~ to t n') -> dget offs' n' = dget offs n').
Proof.
  induction qs as [|q qs IH]; intros offs maxes offs' maxes' H Hnd Hinj; cbn [forM] in H.
  - injection H as <- <-. split; [intros t n' []|]. split; [intros t []|]. split; reflexivity.
  - apply bind_Ok in H. destruct H as ([offs1 maxes1] & Hs & H). inversion Hnd as [|? ? Hni Hnd']; subst.
    destruct (IH _ _ _ _ H Hnd' ltac:(intros a b n' Ha Hb; apply Hinj; now right)) as (A & B & C & D).
    destruct (in_dec string_dec q passthrough) as [Hp|Hp].
    + assert (offs1 = offs /\ maxes1 = maxes) as [-> ->].
      { unfold keys_step in Hs. destruct (memb q (set_of passthrough)) eqn:Em; [injection Hs as <- <-; split; reflexivity|]. apply memb_false in Em. elim Em. apply set_of_In. exact Hp. }
      split; [intros t n' [->|Ht] Hnp; [contradiction|exact (A t n' Ht Hnp)]|]. split; [intros t [->|Ht] Hnp; [contradiction|exact (B t Ht Hnp)]|].
      split; [intros t [Ht|Ht]; apply C; [left; intros F; apply Ht; now right|now right]|]. intros n' Hn. apply D. intros t Ht. apply Hn. now right.
    + destruct (keys_step_Ok Hs Hp) as (n0 & m & Hto & Hm & Ho & Hx).
      split; [|split; [|split]].
      * intros t n' [->|Ht] Hnp Htn.
        -- assert (n' = n0) by exact (lands_fun Htn Hto). subst. exists m. split; [exact Hm|]. split.
           ++ rewrite D; [rewrite Ho; destruct (eq_dec n0 n0); [reflexivity|congruence]|]. intros t' Ht' _ Hl. rewrite (Hinj t' t n0) in Ht'; [contradiction|now right|now left|exact Hl|exact Hto].
           ++ intros Hz. rewrite C; [|now left]. rewrite Hx. destruct (eq_dec t t) as [_|F]; [|congruence]. unfold key_max. destruct (merge_key n0 (tm_table m)); [reflexivity|exact Hz].
        -- destruct (A t n' Ht Hnp Htn) as (m' & A1 & A2 & A3). exists m'. split; [exact A1|]. split; [exact A2|]. intros Hz. apply A3. rewrite Hx.
           destruct (eq_dec t q) as [->|_]; [contradiction|exact Hz].
      * intros t [->|Ht] Hnp; [exists n0; exact Hto|exact (B t Ht Hnp)].
      * intros t Ht. rewrite C; [|destruct Ht as [Ht|Ht]; [left; intros F; apply Ht; now right|now right]]. rewrite Hx. destruct (eq_dec t q) as [->|_]; [|reflexivity].
        destruct Ht as [Ht|Ht]; [elim Ht; now left|contradiction].
      * intros n' Hn. rewrite D; [|intros t Ht; apply Hn; now right]. rewrite Ho. destruct (eq_dec n' n0) as [->|_]; [|reflexivity]. elim (Hn q (or_introl eq_refl) Hp Hto).
Qed.

(** What a foreign key shifts its column by. *)
Variable smeta : meta.
Variable maxes : dict string (option Z).
Definition ref_max (fk : fkey) : option Z :=
  match dget smeta (fk_dst fk) with
  | Some dm => if eqb (fk_dst_cols fk) (tb_pk (tm_table dm)) then dget_or maxes (render (fk_dst fk)) None else None
  | None => None
  end.
Definition fk_step (n : tname) := (fun (offs : dict tname (dict string Z)) fk =>
            match fk_cols fk with
            | [c0] =>
                let* dm := find_key smeta (fk_dst fk) in
                if eqb (fk_dst_cols fk) (tb_pk (tm_table dm)) then
                  match dget_or maxes (render (fk_dst fk)) None with
                  | Some v =>
                      let* n' := remap_table resub c n in
                      let* cur := find_key offs n' in
                      Ok (dset offs n' (dset cur c0 (v + 1)%Z))
                  | None => Ok offs
                  end
                else Ok offs
            | _ => Ok offs
            end).
Definition off (offs : dict tname (dict string Z)) (n' : tname) (k : string) : option Z := dget (dget_or offs n' []) k.

Lemma fk_step_Ok n offs fk offs' n' : remap_table resub c n = Ok n' -> fk_step n offs fk = Ok offs' ->
  (forall x k, x <> n' -> off offs' x k = off offs x k) /\
  (forall k, off offs' n' k = match fk_cols fk with [k'] => if eq_dec k k' then match ref_max fk with Some v => Some (v + 1)%Z | None => off offs n' k end else off offs n' k | _ => off offs n' k end).
Proof.
  intros Hn H. unfold fk_step in H. destruct (fk_cols fk) as [|k [|k2 ks]]; [injection H as <-; split; reflexivity| |injection H as <-; split; reflexivity].
  apply bind_Ok in H. destruct H as (dm & Hd & H). unfold find_key in Hd. apply dfind_Ok in Hd. unfold ref_max. rewrite Hd.
  destruct (eqb (fk_dst_cols fk) (tb_pk (tm_table dm))).
  2:{ injection H as <-. split; [reflexivity|]. intros k'. destruct (eq_dec k' k); reflexivity. }
  destruct (dget_or maxes (render (fk_dst fk)) None) as [v|].
  2:{ injection H as <-. split; [reflexivity|]. intros k'. destruct (eq_dec k' k); reflexivity. }
  rewrite Hn in H. cbn [bind] in H. apply bind_Ok in H. destruct H as (cur & Hc & H). unfold find_key in Hc. apply dfind_Ok in Hc. injection H as <-.
  unfold off, dget_or. split.
  - intros x k' Hne. rewrite dget_dset_ne by congruence. reflexivity.
  - intros k'. rewrite dget_dset_eq, Hc. destruct (eq_dec k' k) as [->|Hne]; [apply dget_dset_eq|]. rewrite dget_dset_ne by congruence. reflexivity.
Qed.
Lemma fk_loop n n' : remap_table resub c n = Ok n' -> forall fks offs offs', forM (fk_step n) fks offs = Ok offs' ->
  (forall x k, x <> n' -> off offs' x k = off offs x k) /\
  (forall k, (forall fk, In fk fks -> fk_cols fk = [k] -> ref_max fk = None) -> off offs' n' k = off offs n' k) /\
  (forall k v, (forall fk, In fk fks -> fk_cols fk = [k] -> ref_max fk = Some v) -> (exists fk, In fk fks /\ fk_cols fk = [k]) -> off offs' n' k = Some (v + 1)%Z).
Proof.
  intros Hn. induction fks as [|fk fks IH]; intros offs offs' H; cbn [forM] in H.
  - injection H as <-. split; [reflexivity|]. split; [reflexivity|]. intros k v _ (fk & [] & _).
  - apply bind_Ok in H. destruct H as (offs1 & H1 & H). destruct (fk_step_Ok Hn H1) as [A B]. destruct (IH _ _ H) as (C & D & F). split; [|split].
    + intros x k Hne. rewrite C by exact Hne. apply A. exact Hne.
    + intros k Hk. rewrite D; [|intros fk' Hin; apply Hk; now right]. rewrite B. destruct (fk_cols fk) as [|k' [|k2 ks]] eqn:Ef; try reflexivity.
      destruct (eq_dec k k') as [->|_]; [|reflexivity]. rewrite (Hk fk (or_introl eq_refl) Ef). reflexivity.
    + intros k v Hk (fk0 & Hin & Hf0).
      destruct (existsb (fun fk => eqb (fk_cols fk) [k]) fks) eqn:Ex.
      * apply existsb_exists in Ex. destruct Ex as (fk1 & Hin1 & Hf1). apply (proj1 (eqb_true _ _)) in Hf1. apply F; [intros fk' Hin'; apply Hk; now right|eauto].
      * assert (Hno : forall fk', In fk' fks -> fk_cols fk' <> [k]).
        { intros fk' Hin' Hc. assert (existsb (fun fk => eqb (fk_cols fk) [k]) fks = true); [|congruence]. apply existsb_exists. exists fk'. split; [exact Hin'|]. apply eqb_true. exact Hc. }
        rewrite D; [|intros fk' Hin' Hc; elim (Hno fk' Hin' Hc)]. destruct Hin as [->|Hin]; [|elim (Hno fk0 Hin Hf0)]. rewrite B, Hf0.
        destruct (eq_dec k k) as [_|F']; [|congruence]. rewrite (Hk fk0 (or_introl eq_refl) Hf0). reflexivity.
Qed.

(** Whatever the references, the last one that has an offset wins. *)
Definition settle (fks : list fkey) (before_ : option Z) (k : string) : option Z :=
  fold_left (fun o fk => match fk_cols fk with [k'] => if eq_dec k k' then match ref_max fk with Some v => Some (v + 1)%Z | None => o end else o | _ => o end) fks before_.
Definition settled (fks : list fkey) (before_ after_ : option Z) (k : string) : Prop := after_ = settle fks before_ k.
Lemma fk_settled n n' : remap_table resub c n = Ok n' -> forall fks offs offs', forM (fk_step n) fks offs = Ok offs' ->
  forall k, settled fks (off offs n' k) (off offs' n' k) k.
Proof.
  intros Hn. induction fks as [|fk fks IH]; intros offs offs' H k; cbn [forM] in H.
  - injection H as <-. reflexivity.
  - apply bind_Ok in H. destruct H as (offs1 & H1 & H). destruct (fk_step_Ok Hn H1) as [_ B]. specialize (IH _ _ H k). unfold settled in *. rewrite IH, B. reflexivity.
Qed.
Lemma settled_cases k : forall fks before_ after_, settled fks before_ after_ k ->
  (after_ = before_ /\ forall fk, In fk fks -> fk_cols fk = [k] -> ref_max fk = None) \/
  exists fk v, In fk fks /\ fk_cols fk = [k] /\ ref_max fk = Some v /\ after_ = Some (v + 1)%Z.
Proof.
  unfold settled, settle. induction fks as [|fk fks IH]; intros b a H; cbn [fold_left] in H.
  - left. split; [exact H|intros fk []].
  - destruct (IH _ _ H) as [(E1 & Hno)|(fk' & v & Hi & Hc & Hr & Hv)].
    2:{ right. exists fk', v. split; [now right|]. auto. }
    clear H IH. subst a. destruct (fk_cols fk) as [|k' [|k2 ks]] eqn:Ef.
    + left. split; [reflexivity|]. intros fk' [<-|Hi] Hc; [congruence|exact (Hno fk' Hi Hc)].
    + destruct (eq_dec k k') as [->|Hne].
      * destruct (ref_max fk) as [v|] eqn:Er; [right; exists fk, v; split; [now left|auto]|]. left. split; [reflexivity|]. intros fk' [<-|Hi] Hc; [exact Er|exact (Hno fk' Hi Hc)].
      * left. split; [reflexivity|]. intros fk' [<-|Hi] Hc; [congruence|exact (Hno fk' Hi Hc)].
    + left. split; [reflexivity|]. intros fk' [<-|Hi] Hc; [congruence|exact (Hno fk' Hi Hc)].
Qed.

Definition refs_step := (fun (offs : dict tname (dict string Z)) table =>
      if memb table (set_of passthrough) then Ok offs
      else
        let* n := parse_name table in
        let* m := find_key smeta n in
        forM (fk_step n) (tm_fks m) offs).
Lemma refs_loop : forall qs offs offs', forM refs_step qs offs = Ok offs' -> NoDup qs ->
  (forall a b n', In a qs -> In b qs -> to a n' -> to b n' -> a = b) ->
  (forall t, In t qs -> ~ In t passthrough -> exists n, named t n /\ exists m, dget smeta n = Some m) /\
  (forall t n n' m, In t qs -> ~ In t passthrough -> named t n -> dget smeta n = Some m -> goes_to resub rules n n' ->
     (forall k, (forall fk, In fk (tm_fks m) -> fk_cols fk = [k] -> ref_max fk = None) -> off offs' n' k = off offs n' k) /\
     (forall k v, (forall fk, In fk (tm_fks m) -> fk_cols fk = [k] -> ref_max fk = Some v) -> (exists fk, In fk (tm_fks m) /\ fk_cols fk = [k]) -> off offs' n' k = Some (v + 1)%Z) /\
     (forall k, settled (tm_fks m) (off offs n' k) (off offs' n' k) k)) /\
  (forall n' k, (forall t, In t qs -> ~ In t passthrough -> ~ to t n') -> off offs' n' k = off offs n' k).
Proof.
  induction qs as [|q qs IH]; intros offs offs' H Hnd Hinj; cbn [forM] in H.
  - injection H as <-. split; [intros t []|]. split; [intros t n n' m []|reflexivity].
  - apply bind_Ok in H. destruct H as (offs1 & Hs & H). inversion Hnd as [|? ? Hni Hnd']; subst.
    destruct (IH _ _ H Hnd' ltac:(intros a b n' Ha Hb; apply Hinj; now right)) as (A & B & C). clear IH.
    unfold refs_step in Hs. destruct (memb q (set_of passthrough)) eqn:Em.
    + apply memb_true in Em. apply (proj1 (set_of_In _ _)) in Em. injection Hs as <-.
      split; [intros t [->|Ht] Hp; [contradiction|exact (A t Ht Hp)]|]. split; [intros t n n' m [->|Ht] Hp; [contradiction|exact (B t n n' m Ht Hp)]|].
      intros n' k Hn. apply C. intros t Ht. apply Hn. now right.
    + apply bind_Ok in Hs. destruct Hs as (n0 & Hn0 & Hs). apply bind_Ok in Hs. destruct Hs as (m0 & Hm0 & Hs). unfold find_key in Hm0. apply dfind_Ok in Hm0.
      unfold parse_name in Hn0. destruct (parse_table_name q) as [nn|] eqn:Ep; [|discriminate]. injection Hn0 as ->. apply parse_named in Ep.
      assert (Hstep : (exists n', remap_table resub c n0 = Ok n') \/ offs1 = offs).
      { destruct (remap_table resub c n0) as [n'|e] eqn:Er; [left; eauto|right]. clear - Hs Er. revert offs Hs.
        induction (tm_fks m0) as [|fk fks IHf]; intros offs Hs; cbn [forM] in Hs; [injection Hs as <-; reflexivity|].
        apply bind_Ok in Hs. destruct Hs as (o1 & H1 & Hs). assert (o1 = offs); [|subst; exact (IHf _ Hs)]. unfold fk_step in H1.
        destruct (fk_cols fk) as [|k [|k2 ks]]; try (injection H1 as <-; reflexivity). apply bind_Ok in H1. destruct H1 as (dm & _ & H1).
        destruct (eqb _ _); [|injection H1 as <-; reflexivity]. destruct (dget_or _ _ _); [|injection H1 as <-; reflexivity]. rewrite Er in H1. discriminate. }
      split; [intros t [->|Ht] Hp; [eauto|exact (A t Ht Hp)]|]. split.
      * intros t n n' m [->|Ht] Hp Hn Hm Hg.
        -- assert (n0 = n) by exact (named_fun Ep Hn). subst n0. rewrite Hm in Hm0. injection Hm0 as <-.
           assert (Hr := proj2 (remap_goes resub c n n') Hg). destruct (fk_loop Hr Hs) as (_ & D & F).
           assert (Hc : forall k, off offs' n' k = off offs1 n' k).
           { intros k. apply C. intros t' Ht' _ Hl. rewrite (Hinj t' t n') in Ht'; [contradiction|now right|now left|exact Hl|exists n; split; assumption]. }
           split; [intros k Hk; rewrite Hc; exact (D k Hk)|]. split; [intros k v Hk He; rewrite Hc; exact (F k v Hk He)|]. intros k. rewrite Hc. exact (fk_settled Hr Hs k).
        -- destruct (B t n n' m Ht Hp Hn Hm Hg) as (B1 & B2 & B3).
           assert (Hsame : forall k, off offs1 n' k = off offs n' k).
           { intros k. destruct Hstep as [(n1 & Hr)| ->]; [|reflexivity]. destruct (fk_loop Hr Hs) as (D & _). apply D. intros <-.
             assert (t = q); [|subst; contradiction]. apply (Hinj t q n'); [now right|now left|exists n; split; assumption|]. exists n0. split; [exact Ep|]. apply remap_goes. exact Hr. }
           split; [intros k Hk; rewrite (B1 k Hk); apply Hsame|]. split; [exact B2|]. intros k. rewrite <- Hsame. apply B3.
      * intros n' k Hn. rewrite C; [|intros t Ht; apply Hn; now right]. destruct Hstep as [(n1 & Hr)| ->]; [|reflexivity]. destruct (fk_loop Hr Hs) as (D & _). apply D. intros ->.
        apply (Hn q (or_introl eq_refl)); [intros F; apply memb_false in Em; apply Em; apply set_of_In; exact F|]. exists n0. split; [exact Ep|]. apply remap_goes. exact Hr.
Qed.
End Merge.

Lemma prepare_spec resub is_int c d o1 smeta passthrough queries o2 :
  db_prepare resub is_int c d o1 smeta passthrough queries = Ok o2 -> oc_merge c = true -> NoDup queries ->
  (forall a b n', In a queries -> In b queries -> lands resub (oc_remap c) a n' -> lands resub (oc_remap c) b n' -> a = b) ->
  exists maxes,
    (forall t n', In t queries -> ~ In t passthrough -> lands resub (oc_remap c) t n' ->
       exists m, dget (ou_meta o1) n' = Some m /\ dget_or maxes t None = key_max is_int d n' (tm_table m)) /\
    (forall t, ~ In t queries \/ In t passthrough -> dget_or maxes t None = None) /\
    (forall t n n' m, In t queries -> ~ In t passthrough -> named t n -> goes_to resub (oc_remap c) n n' -> dget (ou_meta o1) n' = Some m ->
       exists sm, dget smeta n = Some sm /\
       (forall k, (forall fk, In fk (tm_fks sm) -> fk_cols fk = [k] -> ref_max smeta maxes fk = None) ->
          off (ou_offsets o2) n' k = dget (key_offsets is_int d n' (tm_table m)) k) /\
       (forall k v, (forall fk, In fk (tm_fks sm) -> fk_cols fk = [k] -> ref_max smeta maxes fk = Some v) -> (exists fk, In fk (tm_fks sm) /\ fk_cols fk = [k]) ->
          off (ou_offsets o2) n' k = Some (v + 1)%Z) /\
       (forall k, settled smeta maxes (tm_fks sm) (dget (key_offsets is_int d n' (tm_table m)) k) (off (ou_offsets o2) n' k) k)) /\
    (forall n' k, (forall t, In t queries -> ~ In t passthrough -> ~ lands resub (oc_remap c) t n') -> off (ou_offsets o2) n' k = None).
Proof.
  intros H Hm Hnd Hinj. unfold db_prepare in H. rewrite Hm in H. cbn [negb] in H. apply bind_Ok in H. destruct H as ([offs maxes] & Hk & H).
  apply bind_Ok in H. destruct H as (offs2 & Hr & H). injection H as <-. cbn [ou_offsets].
  assert (Hk2 : forM (keys_step resub is_int c d passthrough o1) queries ([], []) = Ok (offs, maxes)) by exact Hk.
  destruct (keys_loop Hk2 Hnd Hinj) as (A & B & C & D).
  assert (Hr2 : forM (refs_step resub c passthrough smeta maxes) queries offs = Ok offs2) by exact Hr.
  destruct (refs_loop Hr2 Hnd Hinj) as (F & P & Q). exists maxes. split; [|split; [|split]].
  - intros t n' Ht Hp Hl. destruct (A t n' Ht Hp Hl) as (m & A1 & _ & A3). exists m. split; [exact A1|]. apply A3. reflexivity.
  - intros t Ht. rewrite (C t Ht). reflexivity.
  - intros t n n' m Ht Hp Hn Hg Hmm. destruct (F t Ht Hp) as (n0 & Hn0 & sm & Hsm). rewrite (named_fun Hn0 Hn) in Hsm. exists sm. split; [exact Hsm|].
    destruct (P t n n' sm Ht Hp Hn Hsm Hg) as (P1 & P2 & P3). destruct (A t n' Ht Hp) as (m' & A1 & A2 & _); [exists n; split; assumption|]. rewrite Hmm in A1. injection A1 as <-.
    assert (Hoff : forall k, off offs n' k = dget (key_offsets is_int d n' (tm_table m)) k) by (intros k; unfold off, dget_or; now rewrite A2).
    split; [intros k Hk'; rewrite (P1 k Hk'); apply Hoff|]. split; [exact P2|]. intros k. rewrite <- Hoff. apply P3.
  - intros n' k Hn. rewrite (Q n' k Hn). unfold off, dget_or. rewrite (D n' Hn). reflexivity.
Qed.

Lemma forM_ext {X S A} (f g : S -> A -> res X S) l : (forall s a, f s a = g s a) -> forall s, forM f l s = forM g l s.
Proof. intros H. induction l as [|a l IH]; intros s; cbn; [reflexivity|]. rewrite H. destruct (g s a); cbn; [apply IH|reflexivity]. Qed.
Lemma prepare_rows resub is_int c d d' o smeta passthrough queries : (forall n, rows_of d n = rows_of d' n) ->
  db_prepare resub is_int c d o smeta passthrough queries = db_prepare resub is_int c d' o smeta passthrough queries.
Proof.
  intros H. unfold db_prepare, merge_keys. destruct (negb (oc_merge c)); [reflexivity|]. match goal with |- bind ?a _ = bind ?b _ => assert (Heq : a = b) end.
  { apply forM_ext. intros [offs maxes] t. destruct (memb t (set_of passthrough)); [reflexivity|]. destruct (parse_name t); cbn; [|reflexivity].
    destruct (remap_table resub c _); cbn; [|reflexivity]. rewrite H. reflexivity. }
  now rewrite Heq.
Qed.

Section MergeRun.
Context {G : Type}.
Variable E : env G.
Variable cfg : sampler_config.
Variable p : plan.
Notation queries := (dkeys (p_queries p)).
Variable c : db_config.
Variable w : world.
Notation rules := (oc_remap c).
Notation to := (lands (en_resub E) rules).
Hypothesis Hok : run_ok E cfg c p (w_dest w).
Hypothesis Hnil : trace w = [].
Hypothesis Hq : NoDup queries.

Lemma copying_fun w' d d' : copying_starts E w w' d -> copying_starts E w w' d' -> d = d'.
Proof.
  intros (pre & post & H1 & A1 & B1 & R1) (pre' & post' & H2 & A2 & B2 & R2). rewrite H1 in H2. clear H1.
  assert (pre = pre'). { clear R1 R2. revert pre' A2 H2. induction pre as [|e pre IH]; intros pre' A2 H2.
    - destruct pre' as [|e' pre']; [reflexivity|]. cbn in H2. subst. elim (B1 e' (or_introl eq_refl)). apply A2. now left.
    - destruct pre' as [|e' pre']; cbn in H2.
      + subst. elim (B2 e (or_introl eq_refl)). apply A1. now left.
      + injection H2 as <- H2. f_equal. apply IH; [intros x Hx; apply A1; now right|intros x Hx; apply A2; now right|exact H2]. }
  subst. exact (replay_fun R1 R2).
Qed.

(** The part of a run that copies, in merge mode. *)
Lemma merge_trace truncate create g w' r : oc_merge c = true -> sample E cfg p truncate create g w = (w', r) ->
  exists d, copying_starts E w w' d /\
   ((succeeded r = false /\ forall n, written (trace w') n = []) \/
    exists o1 o2 ms compact st mults order samples, tracked (en_resub E) c queries (ds_tables (w_dest w')) o1 /\
      db_prepare (en_resub E) (en_dst_int E) c d o1 ms (p_passthrough p) queries = Ok o2 /\
      (forall a b n', In a queries -> In b queries -> to a n' -> to b n' -> a = b) /\
      insertion E c p (ds_tables (w_dest w')) order /\ sampling_at E cfg c p ms compact st mults (ou_offsets o2) (succeeded r) g order samples /\
      NoDup (map fst samples) /\ (forall n, ~ In n (map fst samples) -> written (trace w') n = []) /\
      (forall n rows, In (n, rows) samples -> initial_part (written (trace w') n) rows /\ (succeeded r = true -> written (trace w') n = rows))).
Proof.
  intros Hm Hs. assert (Hx := sample_extends Hs). rewrite Hnil in Hx. cbn in Hx. destruct Hx as (tr & Htr0 & Hrep). subst tr.
  destruct (run_trace Hok Hnil Hs) as (ts & dn & tw & d1 & d2 & o1 & Htr & Hi & Hdb & (D1 & D2 & D3 & D4 & D5) & _ & _ & Hrest).
  assert (Hc : exists created, trace w' = created ++ map EvDelete dn ++ tw /\ (forall e, In e created -> exists ts, e = EvCreate ts) /\ (forall n, batches created n = [])).
  { destruct Htr as [[Htr _]|Htr]; [exists []; split; [exact Htr|split; [intros e []|reflexivity]]|]. exists [EvCreate ts]. split; [exact Htr|]. split; [intros e [<-|[]]; eauto|reflexivity]. }
  destruct Hc as (created & Htc & Hc & Hcb).
  assert (Hb : forall n, batches (trace w') n = batches tw n) by (intros n; rewrite Htc, !batches_app, Hcb, deletes_batches; reflexivity).
  assert (Hrep' := Hrep). rewrite Htc, app_assoc in Hrep'. apply replay_inv_app in Hrep'. destruct Hrep' as (d3 & Hr3 & _).
  assert (Hst : copying_starts E w w' d3).
  { exists (created ++ map EvDelete dn), tw. split; [rewrite <- app_assoc; exact Htc|]. split; [|split; [|exact Hr3]].
    - intros e He. apply in_app_or in He. destruct He as [He|He]; [destruct (Hc e He) as (ts' & ->); exact I|]. apply in_map_iff in He. destruct He as (n & <- & _). exact I.
    - intros e He. rewrite Forall_forall in Hi. specialize (Hi e He). destruct e; tauto. }
  assert (Hd32 : forall n, rows_of d3 n = rows_of d2 n).
  { destruct (replay_inv_app Hr3) as (d4 & Ra & Rb). destruct (replay_creates Ra Hc) as [A _]. destruct (replay_deletes Rb) as (B & C & _). destruct (replay_deletes D4) as (B' & C' & _).
    intros n. destruct (in_dec (@eq_dec _ _) n dn) as [Hin|Hin]; [now rewrite (B n Hin), (B' n Hin)|]. rewrite (C n Hin), (C' n Hin). unfold rows_of. now rewrite A, D1. }
  exists d3. split; [exact Hst|].
  destruct tw as [|e tw].
  { destruct r as [g'|er].
    2:{ left. split; [reflexivity|]. intros n. unfold written. rewrite Hb. reflexivity. }
    right. destruct (validation_first Hok Hnil Hs (or_intror (ex_intro _ g' eq_refl))) as (_ & _ & _ & _ & _ & _ & Hinj & _).
    destruct (Hrest (or_intror (ex_intro _ g' eq_refl))) as (_ & del & l2 & _ & _ & H2).
    destruct (H2 (or_intror (ex_intro _ g' eq_refl))) as (_ & Hk & order & samples & ms & compact & st & mults & o2 & Hins & Hprep & _ & Hsam & Hnd & Hprog & Hall).
    exists o1, o2, ms, compact, st, mults, order, samples. rewrite Hdb. split; [exact Hk|].
    split; [rewrite <- Hprep; apply prepare_rows; exact Hd32|]. split; [exact Hinj|]. split; [exact Hins|]. split; [exact Hsam|]. split; [exact Hnd|].
    split; [intros n _; unfold written; rewrite Hb; reflexivity|]. intros n rows Hin. specialize (Hall g' eq_refl n rows Hin). unfold written in *. rewrite Hb, Hall. split; [apply initial_refl|reflexivity]. }
  right. assert (Hne : map EvDelete dn ++ e :: tw <> []) by (destruct dn; discriminate).
  assert (Hin : exists e', In e' (trace w') /\ forall ts, e' <> EvCreate ts).
  { exists e. split; [rewrite Htc; apply in_or_app; right; apply in_or_app; right; now left|]. inversion Hi as [|? ? He _]; subst. intros ts' ->. exact He. }
  destruct (validation_first Hok Hnil Hs (or_introl Hin)) as (_ & _ & _ & _ & _ & _ & Hinj & _).
  destruct (Hrest (or_introl Hne)) as (_ & del & l2 & _ & _ & H2).
  assert (Hne2 : e :: tw <> []) by discriminate. destruct (H2 (or_introl Hne2)) as (_ & Hk & order & samples & ms & compact & st & mults & o2 & Hins & Hprep & _ & Hsam & Hnd & Hprog & Hall).
  exists o1, o2, ms, compact, st, mults, order, samples. rewrite Hdb. split; [exact Hk|].
  split; [rewrite <- Hprep; apply prepare_rows; exact Hd32|]. split; [exact Hinj|]. split; [exact Hins|]. split; [exact Hsam|]. split; [exact Hnd|].
  destruct (progress_written Hprog Hnd) as (_ & B & dn' & rest & Hdr & C & D).
  split; [intros n Hn; unfold written; rewrite Hb, (B n Hn); reflexivity|]. intros n rows Hin'. unfold written. rewrite Hb.
  split; [|intros Hsu; destruct r as [g'|]; [exact (Hall g' eq_refl n rows Hin')|discriminate]].
  rewrite Hdr in Hin'. apply in_app_or in Hin'. destruct Hin' as [Hin'|Hin']; [unfold written in C; rewrite (C n rows Hin'); apply initial_refl|].
  destruct rest as [|[n0 rows0] later]; [elim Hin'|]. destruct D as [D1' D2']. destruct Hin' as [Eq|Hin']; [injection Eq as -> ->; exact D1'|].
  rewrite (D2' n rows Hin'). exists rows. reflexivity.
Qed.
End MergeRun.
