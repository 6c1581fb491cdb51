(** The command line. *)
From Coq Require Import Permutation.
From Verif Require Import Model.Base Model.Value Model.Names Model.PlanModel Model.Metadata Model.Planner Model.Dest Model.Output Model.Sampler
  Model.Config Model.PlanIO Model.ConfigIO Model.Main.
From Verif Require Import Spec.CliSpec Proofs.BaseFacts Proofs.PlanIOPlanner.
Set Implicit Arguments.
Unset Strict Implicit.
Open Scope string_scope.
Open Scope list_scope.

Lemma then_inv A B (m : cio A) (k : A -> cio B) s s' r : then_do m k s = (s', r) ->
  (exists a s1, m s = (s1, Ok a) /\ k a s1 = (s', r)) \/ (exists e, m s = (s', Err e) /\ r = Err e).
Proof. unfold then_do. destruct (m s) as [s1 [a|e]]; intros H; [left; eauto|right; inv H; eauto]. Qed.
Lemma then_Ok A B (m : cio A) (k : A -> cio B) s s' b : then_do m k s = (s', Ok b) -> exists a s1, m s = (s1, Ok a) /\ k a s1 = (s', Ok b).
Proof. intros H. apply then_inv in H. destruct H as [H|(e & _ & H)]; [exact H|discriminate]. Qed.
Lemma try_inv E A (err : E -> cli_exn) (x : res E A) s s' r : try err x s = (s', r) -> s' = s /\ ((exists a, x = Ok a /\ r = Ok a) \/ (exists e, x = Err e /\ r = Err (err e))).
Proof. destruct x; cbn; unfold done, fail; intros H; inv H; eauto. Qed.

(** ** Reading *)
(** Only the standard input is used up. *)
Definition used (s s' : cli) : Prop :=
  cl_files s' = cl_files s /\ cl_stdout s' = cl_stdout s /\ cl_places s' = cl_places s /\ cl_log s' = cl_log s.
Lemma used_refl s : used s s.
Proof. repeat split. Qed.
Lemma used_trans s s1 s2 : used s s1 -> used s1 s2 -> used s s2.
Proof. intros (A & B & C & D) (A' & B' & C' & D'). repeat split; congruence. Qed.
Lemma used_nothing s s' : used s s' -> nothing_changed s s'.
Proof. intros (A & B & C & D). repeat split; try assumption; intros; [rewrite A|rewrite C]; reflexivity. Qed.

Definition left_over (stdin : content) (paths : list string) : content := if memb "-" paths then Doc DNull else stdin.
Lemma inputs_app files stdin ps qs : inputs files stdin (ps ++ qs) = inputs files stdin ps ++ inputs files (left_over stdin ps) qs.
Proof.
  revert stdin. induction ps as [|p ps IH]; intros stdin; [reflexivity|]. cbn [inputs app]. destruct (String.eqb p "-") eqn:Ep.
  - apply String.eqb_eq in Ep. subst p. rewrite IH. unfold left_over. cbn [memb existsb]. rewrite eqb_refl, orb_true_l.
    destruct (memb "-" ps); reflexivity.
  - rewrite IH. unfold left_over. cbn [memb existsb]. assert (Hf : eqb "-" p = false).
    { apply eqb_false. intros <-. discriminate. } rewrite Hf. reflexivity.
Qed.

Lemma read_yaml_inv e1 e2 path s s' r : read_yaml e1 e2 path s = (s', r) ->
  used s s' /\ cl_stdin s' = left_over (cl_stdin s) [path] /\
  match r with Ok d => say s [path] [d] | Err _ => forall d, ~ say s [path] [d] end.
Proof.
  unfold read_yaml, say, left_over. cbn [inputs memb existsb map]. destruct (String.eqb path "-") eqn:Ep.
  - apply String.eqb_eq in Ep. subst path. intros H. inv H. cbn. split; [repeat split|]. split; [reflexivity|].
    destruct (cl_stdin s); [reflexivity|discriminate].
  - intros H. inv H. split; [apply used_refl|]. assert (Hf : eqb "-" path = false) by (apply eqb_false; intros <-; discriminate). rewrite Hf.
    split; [reflexivity|]. destruct (cl_files s' path) as [[d|]|]; [reflexivity|discriminate|discriminate].
Qed.

Lemma used_inputs s s' paths stdin : used s s' -> inputs (cl_files s') stdin paths = inputs (cl_files s) stdin paths.
Proof. intros (A & _). rewrite A. reflexivity. Qed.
Lemma say_app s ps qs ds : say s (ps ++ qs) ds <-> exists d1 d2, ds = d1 ++ d2 /\ say s ps d1 /\ inputs (cl_files s) (left_over (cl_stdin s) ps) qs = map (fun d => Some (Doc d)) d2.
Proof.
  unfold say. rewrite inputs_app. split.
  - intros H. symmetry in H. apply map_eq_app in H. destruct H as (d1 & d2 & -> & A & B). eauto.
  - intros (d1 & d2 & -> & A & B). rewrite map_app, A, B. reflexivity.
Qed.
Lemma say_cons s p ps ds : say s (p :: ps) ds <-> exists d ds', ds = d :: ds' /\ say s [p] [d] /\ inputs (cl_files s) (left_over (cl_stdin s) [p]) ps = map (fun d => Some (Doc d)) ds'.
Proof.
  rewrite (say_app s [p] ps). split.
  - intros (d1 & d2 & -> & A & B). assert (exists d, d1 = [d]) as (d & ->).
    { unfold say in A. cbn in A. destruct d1 as [|d [|? ?]]; [|eauto|]; destruct (String.eqb p "-"); discriminate. }
    exists d, d2. repeat split; assumption.
  - intros (d & ds' & -> & A & B). exists [d], ds'. repeat split; assumption.
Qed.
Lemma left_over_app stdin ps qs : left_over stdin (ps ++ qs) = left_over (left_over stdin ps) qs.
Proof. unfold left_over, memb. rewrite existsb_app. destruct (existsb (eqb "-") ps), (existsb (eqb "-") qs); reflexivity. Qed.

Lemma read_configs_inv files d0 s s' r : read_configs files d0 s = (s', r) ->
  used s s' /\
  match r with
  | Ok d => cl_stdin s' = left_over (cl_stdin s) files /\ exists ds, say s files ds /\ d = fold_left dict_merge ds d0
  | Err _ => forall ds, ~ say s files ds
  end.
Proof.
  revert d0 s. induction files as [|f files IH]; intros d0 s H.
  - inv H. split; [apply used_refl|]. split; [reflexivity|]. exists []. split; reflexivity.
  - cbn [read_configs] in H. apply then_inv in H. destruct H as [(d & s1 & H1 & H2)|(e & H1 & ->)].
    + apply read_yaml_inv in H1. destruct H1 as (U1 & L1 & Hd). apply IH in H2. destruct H2 as [U2 H2]. split; [exact (used_trans U1 U2)|]. destruct r as [r|e].
      * destruct H2 as (L2 & ds & S & ->). split; [rewrite L2, L1; symmetry; exact (left_over_app (cl_stdin s) [f] files)|]. exists (d :: ds). split; [|reflexivity].
        apply say_cons. exists d, ds. split; [reflexivity|]. split; [exact Hd|]. unfold say in S. rewrite (used_inputs _ _ U1), L1 in S. exact S.
      * intros ds S. apply say_cons in S. destruct S as (d' & ds' & -> & _ & S). apply (H2 ds'). unfold say. rewrite (used_inputs _ _ U1), L1. exact S.
    + apply read_yaml_inv in H1. destruct H1 as (U1 & L1 & Hd). split; [exact U1|]. intros ds S. apply say_cons in S. destruct S as (d' & ds' & -> & S & _). exact (Hd d' S).
Qed.

Lemma say_fun s ps ds ds' : say s ps ds -> say s ps ds' -> ds = ds'.
Proof.
  unfold say. intros -> H. revert ds' H. induction ds as [|d ds IH]; intros [|d' ds'] H; try discriminate; [reflexivity|]. cbn in H. inv H. f_equal. auto.
Qed.

Lemma get_config_inv a s s' r : get_config a s = (s', r) ->
  used s s' /\
  match r with
  | Ok c => cl_stdin s' = left_over (cl_stdin s) (config_files a) /\ exists ds, say s (config_files a) ds /\ load_config (merged ds) = Ok c
  | Err _ => forall c, ~ configured s a c
  end.
Proof.
  unfold get_config. intros H. assert (E : (if is_nil (ar_config a) then ["subsetter.yaml"] else ar_config a) = config_files a).
  { unfold config_files. destruct (ar_config a); reflexivity. } rewrite E in H.
  apply then_inv in H. destruct H as [(d & s1 & H1 & H2)|(e & H1 & ->)].
  - apply read_configs_inv in H1. destruct H1 as (U & L & ds & S & ->). apply try_inv in H2. destruct H2 as (-> & [(c & Hc & ->)|(e & Hc & ->)]).
    + split; [exact U|]. split; [exact L|]. exists ds. split; assumption.
    + split; [exact U|]. intros c (ds' & S' & Hc'). rewrite (say_fun S' S) in Hc'. unfold merged in Hc'. congruence.
  - apply read_configs_inv in H1. destruct H1 as (U & S). split; [exact U|]. intros c (ds' & S' & _). exact (S ds' S').
Qed.

Lemma dialect_speaks u : speaks u (dialect_of u).
Proof.
  unfold speaks, dialect_of. destruct (String.eqb_spec (u_driver u) "mysql+pymysql") as [->|H1]; [repeat split; intros H; discriminate|].
  destruct (String.eqb_spec (u_driver u) "postgresql+psycopg2") as [->|H2]; [repeat split; intros H; discriminate|].
  destruct (String.eqb_spec (u_driver u) "sqlite") as [->|H3]; repeat split; intros H; try discriminate; try contradiction; reflexivity.
Qed.

Lemma speaks_fun u dl : speaks u dl -> dl = dialect_of u.
Proof.
  intros (A & B & C). destruct (dialect_speaks u) as (A' & B' & C'). destruct dl.
  - symmetry. apply A', A. reflexivity.
  - symmetry. apply B', B. reflexivity.
  - symmetry. apply C', C. reflexivity.
  - destruct (dialect_of u); [apply A, A'; reflexivity|apply B, B'; reflexivity|apply C, C'; reflexivity|reflexivity].
Qed.

Section Main.
Context {G : Type}.
Variable getenv : string -> option string.
Variable to_int : string -> option Z.
Variable reachable : engine -> bool.
Variable environment : engine -> env G.
Variables (ord_graph : list string -> list string) (ord_names : list tname -> list tname) (explicit : path -> bool) (start : G)
  (can_open can_write : string -> bool) (partly : string -> content).
Notation main := (main getenv to_int reachable environment ord_graph ord_names explicit start can_open can_write partly).
Notation run_sampler := (run_sampler getenv to_int reachable environment start).
Notation plans := (plans getenv to_int reachable environment ord_graph ord_names).
Notation runs := (runs getenv to_int reachable environment start).
Notation told := (told getenv to_int reachable environment ord_graph ord_names).
Notation make_plan := (make_plan getenv to_int reachable environment ord_graph ord_names).

Lemma connect_inv c s s' r : connect_source getenv to_int reachable c s = (s', r) ->
  s' = s /\ match r with Ok e => source_of getenv to_int c e /\ reachable e = true | Err _ => forall e, source_of getenv to_int c e -> reachable e = false end.
Proof.
  unfold connect_source, source_of. intros H. apply then_inv in H. destruct H as [(e & s1 & H1 & H2)|(e & H1 & ->)]; apply try_inv in H1.
  - destruct H1 as (-> & [(e' & He & H)|(e' & He & H)]); [|discriminate]. inv H. destruct (reachable e') eqn:R; unfold done, fail in H2; inv H2.
    + split; [reflexivity|]. split; assumption.
    + split; [reflexivity|]. intros e He'. rewrite He in He'. inv He'. exact R.
  - destruct H1 as (-> & [(e' & He & H)|(e' & He & H)]); [discriminate|]. split; [reflexivity|]. intros e0 He'. congruence.
Qed.

Lemma make_plan_inv c s s' r : make_plan c s = (s', r) -> s' = s /\ match r with Ok p => plans c p | Err _ => forall p, ~ plans c p end.
Proof.
  unfold Main.make_plan, CliSpec.plans. destruct (sub_planner c) as [pc|] eqn:Ep.
  - intros H. apply then_inv in H. destruct H as [(e & s1 & H1 & H2)|(e & H1 & ->)]; apply connect_inv in H1; destruct H1 as [-> H1].
    + apply try_inv in H2. destruct H2 as (-> & [(p & Hp & ->)|(x & Hp & ->)]); (split; [reflexivity|]).
      * exists pc, e. repeat split; tauto.
      * intros p (pc' & e' & A & B & C & D). inv A. unfold source_of in *. destruct H1 as [H1 _]. rewrite H1 in B. inv B. congruence.
    + split; [reflexivity|]. intros p (pc' & e' & A & B & C & D). rewrite (H1 e' B) in C. discriminate.
  - unfold fail. intros H. inv H. split; [reflexivity|]. intros p (pc' & e' & A & _). discriminate.
Qed.

Lemma same_place_eq (u v : url) : eqb (u_driver u, u_host u, u_port u, u_database u) (u_driver v, u_host v, u_port v, u_database v) = true <->
  same_place (AtDatabase u) (AtDatabase v).
Proof.
  cbn [same_place]. split.
  - intros H. apply (proj1 (eqb_true _ _)) in H. repeat split; congruence.
  - intros (A & B & C & D). rewrite A, B, C, D. apply eqb_refl.
Qed.
Lemma same_place_refl pl : same_place pl pl.
Proof. destruct pl; cbn; auto. Qed.
Lemma at_place_inv A pl (prog : io out_exn A) s s' r : at_place pl prog s = (s', r) ->
  exists w x, prog (mkWorld (cl_places s pl) []) = (w, x) /\ r = match x with Ok a => Ok a | Err e => Err (CxSampling e) end /\
    cl_files s' = cl_files s /\ cl_stdin s' = cl_stdin s /\ cl_stdout s' = cl_stdout s /\ cl_log s' = cl_log s ++ map (pair pl) (trace w) /\
    (forall q, same_place q pl -> cl_places s' q = w_dest w) /\ (forall q, ~ same_place q pl -> cl_places s' q = cl_places s q).
Proof.
  unfold at_place. destruct (prog _) as [w x] eqn:E. intros H. inv H. exists w, x. cbn. repeat split.
  - intros q Hq. destruct q as [u|], pl as [v|]; try (destruct Hq; fail); [|reflexivity]. apply same_place_eq in Hq. rewrite Hq. reflexivity.
  - intros q Hq. destruct q as [u|], pl as [v|]; try reflexivity.
    + destruct (eqb _ _) eqn:Eq; [|reflexivity]. apply same_place_eq in Eq. contradiction.
    + destruct (Hq I).
Qed.

Lemma run_sampler_inv c p truncate create s s' r : run_sampler c p truncate create s = (s', r) ->
  (exists e, r = Err e /\ s' = s) \/
  (exists pl w x, runs c p truncate create pl (cl_places s pl) w x /\ r = match x with Ok _ => Ok tt | Err e => Err (CxSampling e) end /\
    cl_files s' = cl_files s /\ cl_stdin s' = cl_stdin s /\ cl_stdout s' = cl_stdout s /\ cl_log s' = cl_log s ++ map (pair pl) (trace w) /\
    (forall q, same_place q pl -> cl_places s' q = w_dest w) /\ (forall q, ~ same_place q pl -> cl_places s' q = cl_places s q)).
Proof.
  unfold Main.run_sampler. intros H. apply then_inv in H. destruct H as [(e & s1 & H1 & H2)|(x & H1 & ->)]; apply connect_inv in H1; destruct H1 as [-> H1]; [|left; eauto].
  destruct (sub_sampler c) as [sec|] eqn:Es; [|unfold fail in H2; inv H2; left; eauto].
  apply then_inv in H2. destruct H2 as [([pl out] & s1 & H2 & H3)|(x & H2 & ->)].
  - assert (Hout : s1 = s /\ output_place getenv to_int c pl /\ exists dl, (forall u, pl = AtDatabase u -> speaks u dl) /\
      mkSampler out (ss_filters sec) (ss_multiplicity sec) (ss_infer sec) (ss_compact sec) = sampler_of sec dl).
    { unfold output_place, sampler_of. rewrite Es. destruct (ss_output sec) as [dir|db remap st merge] eqn:Eo.
      - unfold done in H2. inv H2. split; [reflexivity|]. split; [exists sec; rewrite Eo; auto|]. exists SQLite. split; [discriminate|reflexivity].
      - apply then_inv in H2. destruct H2 as [(dst & s2 & H2 & H4)|(x & _ & H4)]; [|discriminate]. apply try_inv in H2. destruct H2 as (-> & [(d' & Hd & H5)|(? & _ & H5)]); [|discriminate].
        inv H5. unfold done in H4. inv H4. split; [reflexivity|]. split; [exists sec; rewrite Eo; eauto|]. exists (dialect_of (eg_url d')). split; [|reflexivity]. intros u Hu. inv Hu. apply dialect_speaks. }
    destruct Hout as (-> & Hpl & dl & Hdl & Hcfg). rewrite Hcfg in H3. right. apply then_inv in H3.
    destruct H3 as [(g & s2 & H3 & H4)|(x & H3 & ->)]; apply at_place_inv in H3; destruct H3 as (w & y & Hw & Hy & H3).
    + unfold done in H4. inv H4. exists pl, w, y. split; [exists e, sec, dl; destruct H1 as [Hsrc Hreach]; split; [exact Hsrc|]; split; [exact Hreach|]; split; [exact Es|]; split; [exact Hpl|]; split; [exact Hdl|exact Hw]|]. destruct y; [|discriminate]. split; [reflexivity|exact H3].
    + exists pl, w, y. split; [exists e, sec, dl; destruct H1 as [Hsrc Hreach]; split; [exact Hsrc|]; split; [exact Hreach|]; split; [exact Es|]; split; [exact Hpl|]; split; [exact Hdl|exact Hw]|]. destruct y; [discriminate|]. inv Hy. split; [reflexivity|exact H3].
  - assert (s' = s) as ->; [|left; eauto]. destruct (ss_output sec); [unfold done in H2; discriminate|].
    apply then_inv in H2. destruct H2 as [(dst & s2 & _ & H4)|(y & H2 & _)]; [unfold done in H4; discriminate|]. apply try_inv in H2. tauto.
Qed.

(** The exit status is 0 or 1. *)
Lemma main_plan_inv a out s s' k : ar_action a = APlan out -> main a s = (s', k) ->
  exists r, main_plan getenv to_int reachable environment ord_graph ord_names explicit can_open can_write partly a out s = (s', r) /\ (k = 0%Z <-> r = Ok tt) /\ (k = 1%Z <-> exists e, r = Err e).
Proof.
  unfold Main.main. intros ->. destruct (main_plan _ _ _ _ _ _ _ _ _ _ _ _ _) as [s1 r]. intros H. inv H. exists r. split; [reflexivity|].
  destruct r as [[]|e]; split; split; intros H; try discriminate; eauto; destruct H as (? & H); discriminate.
Qed.

(** C89 *)
Theorem plan_command a out s s' k : ar_action a = APlan out -> main a s = (s', k) ->
  no_output s s' /\
  (k = 0%Z -> exists c p, configured s a c /\ plans c p /\
     match out with
     | None | Some "" => cl_stdout s' = cl_stdout s ++ [sort_keys (dump_plan explicit p)] /\ (forall f, cl_files s' f = cl_files s f)
     | Some path => cl_files s' path = Some (Doc (sort_keys (dump_plan explicit p))) /\ cl_stdout s' = cl_stdout s /\ (forall f, f <> path -> cl_files s' f = cl_files s f)
     end) /\
  (k <> 0%Z -> nothing_changed s s' \/
     exists path c p, out = Some path /\ configured s a c /\ plans c p /\ can_open path = true /\ can_write path = false /\
       cl_stdout s' = cl_stdout s /\ (forall f, f <> path -> cl_files s' f = cl_files s f)).
Proof.
  intros Ha H. destruct (main_plan_inv Ha H) as (r & Hr & K0 & K1). unfold Main.main_plan in Hr. apply then_inv in Hr. destruct Hr as [(c & s1 & H1 & H2)|(e & H1 & ->)].
  - apply get_config_inv in H1. destruct H1 as (U & L & ds & S & Hc). assert (Hcf : configured s a c) by (exists ds; auto).
    apply then_inv in H2. destruct H2 as [(p & s2 & H2 & H3)|(e & H2 & ->)]; apply make_plan_inv in H2; destruct H2 as [-> Hp].
    + destruct U as (U1 & U2 & U3 & U4). unfold write_plan in H3.
      assert (W : (out = None \/ out = Some "" ) /\ s' = mkCli (cl_files s1) (cl_stdin s1) (cl_stdout s1 ++ [sort_keys (dump_plan explicit p)]) (cl_places s1) (cl_log s1) /\ r = Ok tt \/
        exists path, out = Some path /\ path <> "" /\
        ((can_open path = false /\ s' = s1 /\ r = Err CxWritePlan) \/
         (can_open path = true /\ can_write path = false /\ r = Err CxWritePlan /\ s' = mkCli (fun f => if String.eqb f path then Some (partly path) else cl_files s1 f) (cl_stdin s1) (cl_stdout s1) (cl_places s1) (cl_log s1)) \/
         (r = Ok tt /\ s' = mkCli (fun f => if String.eqb f path then Some (Doc (sort_keys (dump_plan explicit p))) else cl_files s1 f) (cl_stdin s1) (cl_stdout s1) (cl_places s1) (cl_log s1)))).
      { destruct out as [path|]; [destruct path as [|ch path]|]; [left; inv H3; auto| |left; inv H3; auto]. right. exists (String ch path). split; [reflexivity|]. split; [discriminate|].
        destruct (can_open (String ch path)); cbn [negb] in H3; [|inv H3; auto]. destruct (can_write (String ch path)); cbn [negb] in H3; inv H3; auto 10. }
      clear H3. destruct W as [(Ho & -> & ->)|(path & -> & Hne & [(Hco & -> & ->)|[(Hco & Hcw & -> & ->)|(-> & ->)]])].
      * split; [split; cbn; congruence|]. split.
        -- intros _. exists c, p. split; [exact Hcf|]. split; [exact Hp|]. cbn. destruct Ho as [->| ->]; (split; [congruence|intros; congruence]).
        -- intros Hk. exfalso. apply Hk, K0. reflexivity.
      * split; [split; intros; congruence|]. split; [intros Hk; apply K0 in Hk; discriminate|]. intros _. left. repeat split; intros; congruence.
      * split; [split; cbn; intros; congruence|]. split; [intros Hk; apply K0 in Hk; discriminate|]. intros _. right. exists path, c, p. cbn.
        split; [reflexivity|]. split; [exact Hcf|]. split; [exact Hp|]. split; [exact Hco|]. split; [exact Hcw|]. split; [congruence|]. intros f Hf. apply String.eqb_neq in Hf. rewrite Hf. congruence.
      * split; [split; cbn; intros; congruence|]. split; [|intros Hk; exfalso; apply Hk, K0; reflexivity]. intros _. exists c, p. split; [exact Hcf|]. split; [exact Hp|].
        destruct path as [|ch path]; [congruence|]. cbn [cl_files cl_stdout]. rewrite String.eqb_refl. split; [reflexivity|]. split; [exact U2|]. intros f Hf. apply String.eqb_neq in Hf. rewrite Hf. congruence.
    + apply used_nothing in U. split; [split; apply U|]. split; [intros Hk; apply K0 in Hk; discriminate|]. intros _. left. exact U.
  - apply get_config_inv in H1. destruct H1 as (U & _). apply used_nothing in U. split; [split; apply U|]. split; [intros Hk; apply K0 in Hk; discriminate|]. intros _. left. exact U.
Qed.

Lemma run_or_not a s s' k : (forall out, ar_action a <> APlan out) -> main a s = (s', k) ->
  (k = 1%Z /\ used s s') \/
  exists c p truncate create s1 r, told s a c p truncate create /\ used s s1 /\ run_sampler c p truncate create s1 = (s', r) /\ (k = 0%Z <-> r = Ok tt) /\ (k = 1%Z <-> exists e, r = Err e).
Proof.
  intros Ha H. unfold Main.main in H.
  assert (Hk : forall r : res cli_exn unit, let k := match r with Ok _ => 0%Z | Err _ => 1%Z end in (k = 0%Z <-> r = Ok tt) /\ (k = 1%Z <-> exists e, r = Err e)).
  { intros [[]|e]; cbn; split; split; intros X; try discriminate; eauto; destruct X as (? & X); discriminate. }
  unfold CliSpec.told. destruct (ar_action a) as [out|file t cr|t cr] eqn:Ea; [destruct (Ha out eq_refl)| |].
  - destruct (main_sample _ _ _ _ _ a file t cr s) as [s2 r] eqn:E. inv H. unfold main_sample in E. apply then_inv in E. destruct E as [(c & s1 & H1 & H2)|(e & H1 & ->)].
    + apply get_config_inv in H1. destruct H1 as (U & L & ds & S & Hc). apply then_inv in H2. destruct H2 as [(d & s2 & H2 & H3)|(e & H2 & ->)]; apply read_yaml_inv in H2; destruct H2 as (U2 & L2 & Hd).
      * apply then_inv in H3. destruct H3 as [(p & s3 & H3 & H4)|(e & H3 & ->)]; apply try_inv in H3; destruct H3 as (-> & H3).
        -- destruct H3 as [(p' & Hp & X)|(? & _ & X)]; [|discriminate]. inv X. right. exists c, p', t, cr, s2, r. split; [|split; [exact (used_trans U U2)|split; [exact H4|apply Hk]]].
           split; [|auto]. exists ds, d. split; [|auto]. apply say_app. exists ds, [d]. split; [reflexivity|]. split; [exact S|]. unfold say in Hd. rewrite L, (used_inputs _ _ U) in Hd. exact Hd.
        -- left. split; [reflexivity|]. exact (used_trans U U2).
      * left. split; [reflexivity|]. exact (used_trans U U2).
    + apply get_config_inv in H1. left. split; [reflexivity|]. apply H1.
  - destruct (main_subset _ _ _ _ _ _ _ a t cr s) as [s2 r] eqn:E. inv H. unfold main_subset in E. apply then_inv in E. destruct E as [(c & s1 & H1 & H2)|(e & H1 & ->)].
    + apply get_config_inv in H1. destruct H1 as (U & L & ds & S & Hc). apply then_inv in H2. destruct H2 as [(p & s2 & H2 & H3)|(e & H2 & ->)]; apply make_plan_inv in H2; destruct H2 as [-> Hp].
      * right. exists c, p, t, cr, s1, r. split; [|split; [exact U|split; [exact H3|apply Hk]]]. split; [exists ds; auto|]. auto.
      * left. split; [reflexivity|exact U].
    + apply get_config_inv in H1. left. split; [reflexivity|]. apply H1.
Qed.

(** C90 *)
Theorem sampling_command a s s' k : (forall out, ar_action a <> APlan out) -> main a s = (s', k) ->
  (k = 1%Z /\ nothing_changed s s') \/
  exists c p truncate create pl w r, told s a c p truncate create /\ runs c p truncate create pl (cl_places s pl) w r /\
    (k = 0%Z <-> exists g, r = Ok g) /\ (forall f, cl_files s' f = cl_files s f) /\ cl_stdout s' = cl_stdout s /\
    cl_log s' = cl_log s ++ map (pair pl) (trace w) /\ (forall q, same_place q pl -> cl_places s' q = w_dest w) /\ (forall q, ~ same_place q pl -> cl_places s' q = cl_places s q).
Proof.
  intros Ha H. destruct (run_or_not Ha H) as [[-> U]|(c & p & t & cr & s1 & r & Ht & U & Hr & K0 & K1)]; [left; split; [reflexivity|exact (used_nothing U)]|].
  apply run_sampler_inv in Hr. destruct Hr as [(e & -> & ->)|(pl & w & x & R & -> & F & I & O & Lg & P & Q)].
  - left. split; [apply K1; eauto|exact (used_nothing U)].
  - right. destruct U as (U1 & U2 & U3 & U4). exists c, p, t, cr, pl, w, x. split; [exact Ht|]. split; [rewrite <- U3; exact R|]. split.
    { rewrite K0. destruct x; split; intros X; try discriminate; eauto. destruct X; discriminate. }
    split; [intros; congruence|]. split; [congruence|]. split; [congruence|]. split; [exact P|]. intros q Hq. rewrite (Q q Hq), U3. reflexivity.
Qed.
End Main.
