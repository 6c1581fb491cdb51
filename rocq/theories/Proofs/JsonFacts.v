(** Facts about Model/Json.v: the text of a file is read back as its rows, and in no other way. *)
From Coq Require Import Lia Decimal DecimalString DecimalZ DecimalPos.
From Verif Require Import Model.Base Model.Value Model.Json Spec.JsonSpec Proofs.BaseFacts.
Set Implicit Arguments.
Unset Strict Implicit.
Open Scope string_scope.
Open Scope list_scope.
Open Scope nat_scope.

(** ** JSON is read in one way *)
Lemma chars_fun s t r : chars s t r -> forall t' r', chars s t' r' -> t = t' /\ r = r'.
Proof.
  induction 1 as [r|c s t r H1 H2 H3 _ IH|e c s t r He _ IH|a b x y s t r Ha Hb _ IH]; intros t' r' H.
  - inversion H as [r0|c s t r0 F|e c s t r0 He|a b x y s t r0]; subst; [auto|]. elim F. reflexivity.
  - inversion H as [r0|c0 s0 t0 r0 G1 G2 G3 G4|e c0 s0 t0 r0 He G|a b x y s0 t0 r0 Ha Hb G]; subst.
    + elim H1. reflexivity.
    + destruct (IH _ _ G4) as [-> ->]. auto.
    + elim H2. reflexivity.
    + elim H2. reflexivity.
  - inversion H as [|c0 s0 t0 r0 G1 G2 G3 G4|e0 c0 s0 t0 r0 He' G|a b x y s0 t0 r0 Ha Hb G]; subst.
    + elim G2. reflexivity.
    + rewrite He in He'. injection He' as <-. destruct (IH _ _ G) as [-> ->]. auto.
    + discriminate He.
  - inversion H as [|c0 s0 t0 r0 G1 G2 G3 G4|e0 c0 s0 t0 r0 He' G|a0 b0 x0 y0 s0 t0 r0 Ha' Hb' G]; subst.
    + elim G2. reflexivity.
    + discriminate He'.
    + rewrite Ha in Ha'. rewrite Hb in Hb'. injection Ha' as <-. injection Hb' as <-. destruct (IH _ _ G) as [-> ->]. auto.
Qed.

Lemma number_fun t : forall t' r r', all_chars in_number t -> all_chars in_number t' -> ~ begins in_number r -> ~ begins in_number r' ->
  (t ++ r)%string = (t' ++ r')%string -> t = t' /\ r = r'.
Proof.
  induction t as [|c t IH]; intros [|c' t'] r r' H H' Hr Hr' E; cbn in *.
  - auto.
  - subst r. elim Hr. exact (proj1 H').
  - subst r'. elim Hr'. exact (proj1 H).
  - injection E as -> E. destruct (IH t' r r') as [-> ->]; tauto.
Qed.

Scheme reads_mut := Induction for reads Sort Prop
with elements_mut := Induction for elements Sort Prop
with members_mut := Induction for members Sort Prop.

(** What a value begins with. *)
Definition head (s : string) : option ascii := match s with "" => None | String c _ => Some c end.
Lemma number_head t r : number t -> exists c s, (t ++ r)%string = String c s /\ (is_digit c || (code c =? 45)) = true.
Proof. intros [H _]. destruct t as [|c t]; [destruct H|]. exists c, (t ++ r)%string. split; [reflexivity|exact H]. Qed.
Ltac not_number H := exfalso; let c := fresh in let s := fresh in let E := fresh in let D := fresh in
  destruct (number_head _ H) as (c & s & E & D); rewrite E in *; congruence || (match goal with X : String _ _ = String _ _ |- _ => injection X as <- <-; discriminate D end).
Definition uses (s : string) (j : json) (r : string) : Prop := forall j' r', reads s j' r' -> j = j' /\ r = r'.

Lemma num_no c s t r : number t -> (t ++ r)%string = String c s -> (is_digit c || (code c =? 45)) = true.
Proof. intros H E. destruct (number_head r H) as (c' & s' & E' & D). rewrite E' in E. injection E as <- <-. exact D. Qed.

Lemma reads_fun : forall s j r, reads s j r -> forall j' r', reads s j' r' -> j = j' /\ r = r'.
Proof.
  apply (reads_mut (P := fun s j r _ => forall j' r', reads s j' r' -> j = j' /\ r = r')
    (P0 := fun s l r _ => forall l' r', elements s l' r' -> l = l' /\ r = r') (P1 := fun s l r _ => forall l' r', members s l' r' -> l = l' /\ r = r')).
  - intros r j' r' H. cbn in H. inversion H; subst; auto. match goal with N : number _, X : (_ ++ _)%string = _ |- _ => discriminate (num_no N X) end.
  - intros r j' r' H. cbn in H. inversion H; subst; auto. match goal with N : number _, X : (_ ++ _)%string = _ |- _ => discriminate (num_no N X) end.
  - intros r j' r' H. cbn in H. inversion H; subst; auto. match goal with N : number _, X : (_ ++ _)%string = _ |- _ => discriminate (num_no N X) end.
  - intros t r Hn Hr j' r' H. remember (t ++ r)%string as s eqn:Es. destruct H as [r0|r0|r0|t0 r0 N0 R0|s t0 r0 H|s r0 H|s l r0 H|s r0 H|s l r0 H]; try (discriminate (num_no Hn (eq_sym Es))).
    destruct (number_fun (proj2 Hn) (proj2 N0) Hr R0 (eq_sym Es)) as [-> ->]. auto.
  - intros s t r Hc j' r' H. inversion H; subst; try (match goal with N : number _, X : (_ ++ _)%string = _ |- _ => discriminate (num_no N X) end).
    match goal with X : chars s _ _ |- _ => destruct (chars_fun Hc X) as [-> ->] end. auto.
  - intros s r Hs j' r' H. inversion H as [| | |t r0 N R X| |s0 r0 H0|s0 l r0 H0| |]; subst; [discriminate (num_no N X)| |].
    + rewrite Hs in H0. injection H0 as ->. auto.
    + exfalso. inversion H0 as [s1 j s2 r1 X|s1 j s2 s3 l1 r1 X]; subst; rewrite Hs in X; inversion X; subst; match goal with N : number _, X : (_ ++ _)%string = _ |- _ => discriminate (num_no N X) end.
  - intros s l r He IH j' r' H. inversion H as [| | |t r0 N R X| |s0 r0 H0|s0 l0 r0 H0| |]; subst; [discriminate (num_no N X)| |].
    + exfalso. inversion He as [s1 j s2 r1 X|s1 j s2 s3 l1 r1 X]; subst; rewrite H0 in X; inversion X; subst; match goal with N : number _, X : (_ ++ _)%string = _ |- _ => discriminate (num_no N X) end.
    + destruct (IH _ _ H0) as [-> ->]. auto.
  - intros s r Hs j' r' H. inversion H as [| | |t r0 N R X| | | |s0 r0 H0|s0 l r0 H0]; subst; [discriminate (num_no N X)| |].
    + rewrite Hs in H0. injection H0 as ->. auto.
    + exfalso. inversion H0; subst; congruence.
  - intros s l r He IH j' r' H. inversion H as [| | |t r0 N R X| | | |s0 r0 H0|s0 l0 r0 H0]; subst; [discriminate (num_no N X)| |].
    + exfalso. inversion He; subst; congruence.
    + destruct (IH _ _ H0) as [-> ->]. auto.
  - intros s j s1 r _ IH Hs l' r' H. inversion H as [s0 j0 s2 r0 R0 E0|s0 j0 s2 s3 l0 r0 R0 E0 M0]; subst; destruct (IH _ _ R0) as [-> ->]; rewrite Hs in E0; [injection E0 as ->; auto|discriminate].
  - intros s j s1 s2 l r _ IH Hs _ IHl l' r' H. inversion H as [s0 j0 s3 r0 R0 E0|s0 j0 s3 s4 l0 r0 R0 E0 M0]; subst; destruct (IH _ _ R0) as [-> ->]; rewrite Hs in E0; [discriminate|].
    injection E0 as <-. destruct (IHl _ _ M0) as [-> ->]. auto.
  - intros s s1 k s2 s3 j s4 r H1 H2 H3 _ IH H5 l' r' H. inversion H as [s0 s1' k' s2' s3' j' s4' r0 G1 G2 G3 G4 G5|s0 s1' k' s2' s3' j' s4' s5' l0 r0 G1 G2 G3 G4 G5 G6]; subst;
      rewrite H1 in G1; injection G1 as <-; destruct (chars_fun H2 G2) as [<- <-]; rewrite H3 in G3; injection G3 as <-; destruct (IH _ _ G4) as [<- <-]; rewrite H5 in G5; [injection G5 as <-; auto|discriminate].
  - intros s s1 k s2 s3 j s4 s5 l r H1 H2 H3 _ IH H5 _ IHl l' r' H. inversion H as [s0 s1' k' s2' s3' j' s4' r0 G1 G2 G3 G4 G5|s0 s1' k' s2' s3' j' s4' s5' l0 r0 G1 G2 G3 G4 G5 G6]; subst;
      rewrite H1 in G1; injection G1 as <-; destruct (chars_fun H2 G2) as [<- <-]; rewrite H3 in G3; injection G3 as <-; destruct (IH _ _ G4) as [<- <-]; rewrite H5 in G5; [discriminate|].
    injection G5 as <-. destruct (IHl _ _ G6) as [-> ->]. auto.
Qed.

(** ** What is written is read *)
Lemma app_assoc_s a b c : ((a ++ b) ++ c)%string = (a ++ b ++ c)%string.
Proof. induction a as [|x a IH]; [reflexivity|]. cbn. now rewrite IH. Qed.
Lemma app_nil_s a : (a ++ "")%string = a.
Proof. induction a as [|x a IH]; [reflexivity|]. cbn. now rewrite IH. Qed.

Lemma escape_chars c s t r : chars s t r -> chars (escape c ++ s)%string (String c t) r.
Proof.
  intros H. destruct c as [b0 b1 b2 b3 b4 b5 b6 b7]. destruct b0, b1, b2, b3, b4, b5, b6, b7;
    match goal with |- chars (escape ?c ++ s)%string _ _ => let e := eval vm_compute in (escape c) in change (escape c) with e end; cbn [append];
    first [ apply chars_plain; [vm_compute; discriminate|vm_compute; discriminate|apply Nat.leb_le; vm_compute; reflexivity|exact H]
          | eapply chars_short; [reflexivity|exact H]
          | match goal with |- chars _ (String ?c _) _ => let n := eval vm_compute in (nat_of_ascii c) in
              let x := eval vm_compute in (n / 16) in let y := eval vm_compute in (n mod 16) in
              change (String c t) with (String (ascii_of_nat (16 * x + y)) t) end; eapply chars_hex; [vm_compute; reflexivity|vm_compute; reflexivity|exact H] ].
Qed.
Lemma escapes_chars s r : chars (escapes s ++ String quote r)%string s r.
Proof. induction s as [|c s IH]; [apply chars_end|]. cbn [escapes]. rewrite app_assoc_s. apply escape_chars. exact IH. Qed.
Lemma string_reads s r : reads (string_json s ++ r)%string (JStr s) r.
Proof. unfold string_json. cbn [append]. apply reads_str. rewrite app_assoc_s. apply escapes_chars. Qed.

Lemma uint_number d : all_chars in_number (NilEmpty.string_of_uint d) /\ (d <> Nil -> begins is_digit (NilEmpty.string_of_uint d)).
Proof. induction d as [|d IH|d IH|d IH|d IH|d IH|d IH|d IH|d IH|d IH|d IH]; cbn; (split; [|auto]); try (split; [reflexivity|]); try apply IH; auto. Qed.
Lemma begins_or p q s : begins p s -> begins (fun c => p c || q c) s.
Proof. destruct s as [|c s]; [auto|]. cbn. intros ->. reflexivity. Qed.
Lemma nonnil_uint d : NilZero.string_of_uint d = if match d with Nil => true | _ => false end then "0" else NilEmpty.string_of_uint d.
Proof. destruct d; reflexivity. Qed.
Lemma uint_is_number d : all_chars in_number (NilZero.string_of_uint d) /\ begins is_digit (NilZero.string_of_uint d).
Proof.
  rewrite nonnil_uint. destruct d as [|d|d|d|d|d|d|d|d|d|d]; [split; [split; [reflexivity|exact I]|reflexivity]|..]; (match goal with |- context [NilEmpty.string_of_uint ?x] => destruct (uint_number x) as [A B] end; split; [exact A|apply B; discriminate]).
Qed.
Lemma int_number z : number (NilZero.string_of_int (Z.to_int z)).
Proof.
  destruct (Z.to_int z) as [d|d]; cbn [NilZero.string_of_int]; destruct (uint_is_number d) as [A B].
  - split; [apply begins_or; exact B|exact A].
  - split; [reflexivity|]. split; [reflexivity|exact A].
Qed.
Lemma int_back z : NilZero.int_of_string (NilZero.string_of_int (Z.to_int z)) = Some (Z.to_int z).
Proof.
  destruct z as [|p|p]; [reflexivity|..]; apply NilZero.isi; cbn [Z.to_int]; intros E; try discriminate E; injection E as E; exact (Unsigned.to_uint_nonnil _ E).
Qed.

Section Text.
Variable repr : Q -> string.
Variable str : value -> string.
Notation value_json := (value_json repr str).
Notation items_json := (items_json repr str).
Notation line := (line repr str).
Notation text := (text repr str).
Hypothesis Hrepr : writes_floats repr.

Lemma value_reads v : exists j, cell repr str v j /\ forall r, ~ begins in_number r -> reads (value_json v ++ r)%string j r.
Proof.
  destruct v as [|b|z|q|s|t tz|k]; cbn [Json.value_json cell].
  - exists JNull. split; [reflexivity|]. intros r _. apply reads_null.
  - exists (JBool b). split; [reflexivity|]. intros r _. destruct b; [apply reads_true|apply reads_false].
  - eexists. split; [do 2 eexists; split; [reflexivity|]; split; [apply int_back|apply of_to]|]. intros r Hr. apply reads_num; [apply int_number|exact Hr].
  - exists (JNum (repr q)). split; [reflexivity|]. intros r Hr. apply reads_num; [apply Hrepr|exact Hr].
  - exists (JStr s). split; [reflexivity|]. intros r _. apply string_reads.
  - eexists. split; [reflexivity|]. intros r _. apply string_reads.
  - eexists. split; [reflexivity|]. intros r _. apply string_reads.
Qed.
(** The first character of a value is no blank. *)
Lemma value_skip v r : skip (value_json v ++ r)%string = (value_json v ++ r)%string.
Proof.
  assert (Hnum : forall t, number t -> skip (t ++ r)%string = (t ++ r)%string).
  { intros t [H _]. destruct t as [|c t]; [destruct H|]. cbn in *. destruct (is_blank c) eqn:Eb; [exfalso|reflexivity]. unfold is_blank, is_digit in *.
    repeat rewrite Bool.orb_true_iff in *. rewrite Bool.andb_true_iff in H. repeat rewrite Nat.eqb_eq in *. repeat rewrite Nat.leb_le in H. lia. }
  destruct v as [|b|z|q|s|t tz|k]; cbn [Json.value_json]; try reflexivity; [destruct b; reflexivity|apply Hnum; apply int_number|apply Hnum; apply Hrepr].
Qed.

Lemma skip_space s t : skip s = t -> skip (String " " s) = t.
Proof. intros H. exact H. Qed.
Lemma items_members : forall l : row, l <> [] ->
  exists js, Forall2 (fun kv kj => fst kj = fst kv /\ cell repr str (snd kv) (snd kj)) l js /\ forall r, members (items_json l ++ String "}" r)%string js r /\
    members (String " " (items_json l ++ String "}" r)) js r.
Proof.
  induction l as [|[k v] l IH]; intros Hne; [congruence|]. destruct (value_reads v) as (j & Hc & Hr). destruct l as [|kv l].
  - exists [(k, j)]. split; [constructor; [split; [reflexivity|exact Hc]|constructor]|]. intros r. cbn [Json.items_json]. rewrite !app_assoc_s.
    assert (H0 : skip (string_json k ++ ": " ++ value_json v ++ String "}" r)%string = String quote (escapes k ++ String quote (": " ++ value_json v ++ String "}" r))%string).
    { unfold string_json. cbn [append skip]. change (is_blank quote) with false. cbn iota. rewrite app_assoc_s. reflexivity. }
    assert (H3 : reads (skip (String " " (value_json v ++ String "}" r))) j (String "}" r)).
    { cbn [skip]. change (is_blank " ") with true. cbn iota. rewrite value_skip. apply Hr. cbn. discriminate. }
    split; [|apply skip_space in H0]; exact (@members_last _ _ k _ _ j _ r H0 (escapes_chars _ _) eq_refl H3 eq_refl).
  - destruct IH as (js & HF & HMs); [discriminate|]. exists ((k, j) :: js). split; [constructor; [split; [reflexivity|exact Hc]|exact HF]|]. intros r. destruct (HMs r) as [_ HM].
    assert (Ei : items_json ((k, v) :: kv :: l) = (string_json k ++ ": " ++ value_json v ++ ", " ++ items_json (kv :: l))%string) by (destruct kv; reflexivity).
    rewrite Ei. rewrite !app_assoc_s. set (rest := (items_json (kv :: l) ++ String "}" r)%string) in *.
    assert (H0 : skip (string_json k ++ ": " ++ value_json v ++ ", " ++ rest)%string = String quote (escapes k ++ String quote (": " ++ value_json v ++ ", " ++ rest))%string).
    { unfold string_json. cbn [append skip]. change (is_blank quote) with false. cbn iota. rewrite app_assoc_s. reflexivity. }
    assert (H3 : reads (skip (String " " (value_json v ++ ", " ++ rest))) j (", " ++ rest)%string).
    { cbn [skip]. change (is_blank " ") with true. cbn iota. rewrite value_skip. apply Hr. cbn. discriminate. }
    split; [|apply skip_space in H0]; exact (@members_more _ _ k _ _ j _ _ js r H0 (escapes_chars _ _) eq_refl H3 eq_refl HM).
Qed.

Lemma line_reads (l : row) : exists j, record repr str l j /\ forall r, reads (line l ++ r)%string j r.
Proof.
  destruct l as [|kv l].
  - exists (JObj []). split; [exists []; split; [reflexivity|constructor]|]. intros r. apply reads_obj0. reflexivity.
  - destruct (@items_members (kv :: l)) as (js & HF & HM); [discriminate|]. exists (JObj js). split; [exists js; auto|]. intros r.
    unfold Json.line. cbn [append]. apply reads_obj. rewrite app_assoc_s. exact (proj1 (HM r)).
Qed.

(** ** One line *)
Lemma one_line_app a b : one_line a -> one_line b -> one_line (a ++ b).
Proof. induction a as [|c a IH]; intros H H'; [exact H'|]. cbn in *. tauto. Qed.
Lemma number_one_line t : number t -> one_line t.
Proof.
  intros [_ H]. induction t as [|c t IH]; [exact I|]. destruct H as [H1 H2]. cbn. specialize (IH H2).
  unfold in_number, is_digit in H1. cbn [existsb] in H1. repeat rewrite Bool.orb_true_iff in H1. rewrite Bool.andb_true_iff in H1. repeat rewrite Nat.eqb_eq in H1. repeat rewrite Nat.leb_le in H1.
  split; [|split; [|exact IH]]; intros E; rewrite E in H1; destruct H1 as [H1|[H1|[H1|[H1|[H1|[H1|H1]]]]]]; try discriminate; lia.
Qed.
Lemma string_one_line s : one_line (string_json s).
Proof.
  unfold string_json. split; [discriminate|]. split; [discriminate|]. apply one_line_app; [|repeat split; discriminate]. induction s as [|c s IH]; [exact I|]. cbn [escapes]. apply one_line_app; [|exact IH]. clear IH.
  destruct c as [b0 b1 b2 b3 b4 b5 b6 b7]. destruct b0, b1, b2, b3, b4, b5, b6, b7; vm_compute; repeat split; discriminate.
Qed.
Lemma value_one_line v : one_line (value_json v).
Proof.
  destruct v as [|b|z|q|s|t tz|k]; cbn [Json.value_json]; try apply string_one_line; [repeat split; discriminate|destruct b; repeat split; discriminate|apply number_one_line; apply int_number|apply number_one_line; apply Hrepr].
Qed.
Lemma line_one_line l : one_line (line l).
Proof.
  unfold Json.line. apply one_line_app; [repeat split; discriminate|]. apply one_line_app; [|repeat split; discriminate]. induction l as [|[k v] l IH]; [exact I|].
  assert (Ei : items_json ((k, v) :: l) = (string_json k ++ ": " ++ value_json v ++ match l with [] => "" | _ => ", " ++ items_json l end)%string) by (destruct l as [|[] ?]; cbn; rewrite ?app_nil_s; reflexivity).
  rewrite Ei. apply one_line_app; [apply string_one_line|]. apply one_line_app; [repeat split; discriminate|]. apply one_line_app; [apply value_one_line|]. destruct l; [exact I|]. apply one_line_app; [repeat split; discriminate|exact IH].
Qed.

Lemma concat_cons a l : String.concat "" (a :: l) = (a ++ String.concat "" l)%string.
Proof. destruct l; cbn; [now rewrite app_nil_s|reflexivity]. Qed.

(** C106 *)
Theorem text_lines rows : exists ls, text rows = String.concat "" (map (fun l => l ++ newline)%string ls) /\
  Forall2 (fun r l => one_line l /\ (exists j, document l j) /\ forall j, document l j -> record repr str r j) rows ls.
Proof.
  exists (map line rows). split.
  - induction rows as [|r rows IH]; [reflexivity|]. cbn [Json.text map]. rewrite IH. rewrite concat_cons, app_assoc_s. reflexivity.
  - induction rows as [|r rows IH]; constructor; [|exact IH]. split; [apply line_one_line|]. destruct (line_reads r) as (j & Hj & Hr). specialize (Hr ""). rewrite app_nil_s in Hr.
    assert (Hs : skip (line r) = line r) by reflexivity. unfold document. rewrite Hs. split; [eauto|]. intros j' Hj'. destruct (reads_fun Hr Hj') as [<- _]. exact Hj.
Qed.

Lemma cell_same v v' j : cell repr str v j -> cell repr str v' j -> own v -> own v' -> same_value v v'.
Proof.
  destruct v as [|b|z|q|s|t tz|k]; destruct v' as [|b'|z'|q'|s'|t' tz'|k']; cbn; intros A B O O'; try tauto; try congruence;
    try (destruct A as (t0 & d & A & T1 & T2)); try (destruct B as (t1 & d1 & B & T3 & T4)); rewrite A in B; try discriminate B; injection B as B.
  - congruence.
  - rewrite B in T1. rewrite (proj2 (proj1 Hrepr q')) in T1. discriminate.
  - rewrite <- B in T3. rewrite (proj2 (proj1 Hrepr q)) in T3. discriminate.
  - exact (proj2 Hrepr _ _ B).
Qed.
Theorem text_determines rows : forall rows', text rows = text rows' ->
  Forall2 (Forall2 (fun kv kv' => fst kv = fst kv' /\ (own (snd kv) -> own (snd kv') -> same_value (snd kv) (snd kv')))) rows rows'.
Proof.
  induction rows as [|r rows IH]; intros [|r' rows'] E; [constructor|discriminate|discriminate|]. cbn [Json.text] in E.
  destruct (line_reads r) as (j & (l & -> & HF) & Hr). destruct (line_reads r') as (j' & (l' & -> & HF') & Hr'). specialize (Hr (newline ++ text rows)%string). specialize (Hr' (newline ++ text rows')%string). rewrite E in Hr. destruct (reads_fun Hr Hr') as [El Et].
  injection El as <-. injection Et as Et. constructor; [|exact (IH _ Et)]. clear - HF HF' Hrepr. revert r' HF'. induction HF as [|[k v] [k1 j1] r l [A B] _ IH]; intros r' HF'; inversion HF' as [|[k2 v2] ? r2 ? [A' B'] C]; subst; constructor; [|exact (IH _ C)].
  cbn in *. subst. split; [reflexivity|]. intros O O'. exact (cell_same B B' O O').
Qed.
End Text.

(** ** A way to write floats *)
Definition plain_char (c : ascii) : bool := is_digit c || (code c =? 45).
Definition fraction (q : Q) : string := (NilZero.string_of_int (Z.to_int (Qnum q)) ++ "e" ++ NilZero.string_of_int (Z.to_int (Zpos (Qden q))))%string.
Lemma all_chars_app p a b : all_chars p (a ++ b) <-> all_chars p a /\ all_chars p b.
Proof. induction a as [|c a IH]; cbn; [tauto|]. rewrite IH. tauto. Qed.
Lemma uint_plain d : all_chars plain_char (NilEmpty.string_of_uint d).
Proof. induction d as [|d IH|d IH|d IH|d IH|d IH|d IH|d IH|d IH|d IH|d IH]; cbn; auto. Qed.
Lemma int_plain d : all_chars plain_char (NilZero.string_of_int d).
Proof.
  assert (H : forall d, all_chars plain_char (NilZero.string_of_uint d)) by (intros x; rewrite nonnil_uint; destruct x; [repeat split|..]; apply uint_plain).
  destruct d as [d|d]; cbn [NilZero.string_of_int]; [apply H|]. split; [reflexivity|apply H].
Qed.
Lemma plain_split a : forall a' b b', all_chars plain_char a -> all_chars plain_char a' -> (a ++ String "e" b)%string = (a' ++ String "e" b')%string -> a = a' /\ b = b'.
Proof.
  induction a as [|c a IH]; intros [|c' a'] b b' H H' E; cbn in *.
  - injection E as ->. auto.
  - injection E as <- _. destruct H' as [H' _]. discriminate H'.
  - injection E as -> _. destruct H as [H _]. discriminate H.
  - injection E as -> E. destruct (IH a' b b') as [-> ->]; tauto.
Qed.
Lemma fraction_writes : writes_floats fraction.
Proof.
  split.
  - intros q. split.
    + destruct (int_number (Qnum q)) as [A B]. split.
      * unfold fraction. destruct (NilZero.string_of_int (Z.to_int (Qnum q))); [destruct A|exact A].
      * unfold fraction. apply all_chars_app. split; [exact B|]. split; [reflexivity|apply int_number].
    + destruct (NilZero.int_of_string (fraction q)) as [d|] eqn:E; [|reflexivity]. apply NilZero.sis in E. pose proof (int_plain d) as H. rewrite E in H. unfold fraction in H. apply all_chars_app in H. destruct H as [_ [H _]]. discriminate H.
  - intros [a b] [a' b'] E. unfold fraction in E. cbn [Qnum Qden append] in E. apply plain_split in E; [|apply int_plain|apply int_plain]. destruct E as [E1 E2].
    apply (f_equal NilZero.int_of_string) in E1. apply (f_equal NilZero.int_of_string) in E2. rewrite !int_back in E1, E2. injection E1 as E1. injection E2 as E2.
    assert (Ea : a = a') by (rewrite <- (of_to a), <- (of_to a'), E1; reflexivity). assert (Eb : Zpos b = Zpos b') by (rewrite <- (of_to (Zpos b)), <- (of_to (Zpos b')); cbn [Z.to_int]; rewrite E2; reflexivity).
    injection Eb as ->. subst. reflexivity.
Qed.
