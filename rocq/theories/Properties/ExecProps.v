(** * C52, C66: which code runs *)
From Verif Require Import Model.Base Model.State Model.Dec Model.Time Model.Value Model.Encoder Model.Hdf5 Model.Runtime Model.Driver Model.Orm Model.Exec Model.Executor.
From Verif Require Import Spec.OrmSpec Spec.ExecSpec Proofs.BaseFacts Proofs.DriverFacts Proofs.OrmFacts Proofs.ExecFacts Proofs.ExecRel Proofs.MeterFacts Proofs.TxFacts Proofs.DrvRel Proofs.LogFacts Proofs.CtxFacts Proofs.PhaseRel Proofs.HostFacts.
From Verif Require Import Properties.Demo Properties.CtxProps.
From Coq Require Import Lia.
Local Open Scope nat_scope.

(** ** C52 *)
Lemma code_key c : make_key c CODE_KEY [] = c ++ u ".__code__". Proof. reflexivity. Qed.
Lemma compiled_key c : make_key c COMPILED_KEY [] = c ++ u ".__compiled__". Proof. reflexivity. Qed.
Lemma began_reads s k : reads_as (began s) k = reads_as s k.
Proof. unfold reads_as. rewrite !get_result. reflexivity. Qed.
Lemma began_code s c : has_code (began s) c <-> has_code s c.
Proof. unfold has_code. split; intros (code & H & HN); exists code; (split; [rewrite began_reads in *; exact H|exact HN]). Qed.
Definition quiet_log (s s' : mach) : Prop := exists l, s_log s' = s_log s ++ l /\ nothing_ran l.
Lemma ql_refl s s' : s_log s' = s_log s -> quiet_log s s'.
Proof. intros H. exists []. rewrite app_nil_r. split; [exact H|constructor]. Qed.
Lemma ql_trans a b c : quiet_log a b -> quiet_log b c -> quiet_log a c.
Proof. intros (l & H & HF) (l' & H' & HF'). exists (l ++ l'). rewrite H', H, app_assoc. split; [reflexivity|apply Forall_app; auto]. Qed.
Lemma admission_log g t s : s_log (snd (admission g t s)) = s_log s.
Proof.
  unfold admission. destruct (metered g t); [|reflexivity]. rewrite bind_eq. destruct (g_bypass_balance g).
  - cbn [ret]. rewrite bind_eq. unfold lift, check. destruct (enough (VInt 9999999) (t_rate t) (t_stamps t)) as [[]|]; reflexivity.
  - rewrite bind_eq. destruct (read_same (get (balance_key g t)) s) as [H _]. destruct (on_w (on_drv (get (balance_key g t))) s) as [[b|e] s1]; cbn [snd] in *; [|exact H].
    unfold lift. destruct (balance_value b) as [v|e]; [|exact H]. rewrite bind_eq. destruct (enough v (t_rate t) (t_stamps t)) as [[]|]; exact H.
Qed.
Lemma base_log t s : s_log (snd (base_context t s)) = s_log s.
Proof.
  unfold base_context. rewrite bind_eq. destruct (read_same (get_owner (t_contract t)) s) as [H _]. destruct (on_w (on_drv (get_owner (t_contract t))) s) as [[o|e] s1]; cbn [snd] in *; [|exact H].
  rewrite bind_eq. cbn [modify]. rewrite bind_eq. cbn [gets]. destruct (_ || _)%bool; exact H.
Qed.
(** preparing a transaction whose contract is no Python module: it is stored, or nothing ran *)
Lemma prepare_stored L fuel g t s : s_mods s = [] -> l_host L (t_contract t) = None ->
  has_code s (t_contract t) \/ (is_ok (fst (prepare L fuel g t s)) = false /\ quiet_log s (snd (prepare L fuel g t s))).
Proof.
  intros HM HH. remember (prepare L fuel g t s) as R eqn:ER. unfold prepare in ER. rewrite bind_eq in ER.
  pose proof (admission_calm g t s) as H1. pose proof (admission_log g t s) as G1. destruct (admission g t s) as [[[]|e] s2]; cbn [snd] in *.
  2:{ right. subst R. split; [reflexivity|apply ql_refl; exact G1]. }
  rewrite bind_eq in ER. cbn [modify] in ER. set (s3 := upd_r _ s2) in ER. assert (H3 : calm s s3) by exact H1. assert (G3 : s_log s3 = s_log s) by exact G1. clearbody s3. clear H1 G1 s2.
  rewrite bind_eq in ER. pose proof (base_calm t s3) as H4. pose proof (base_log t s3) as G4. destruct (base_context t s3) as [[[]|e] s4]; cbn [snd] in *.
  2:{ right. subst R. split; [reflexivity|apply ql_refl; cbn [snd]; congruence]. }
  assert (H5 : calm s s4) by exact (calm_trans _ _ _ H3 H4). assert (G5 : s_log s4 = s_log s) by congruence. clear H3 H4 G3 G4 s3. destruct H5 as [M4 F4]. rewrite HM in M4.
  rewrite bind_eq in ER. unfold find_function in ER. rewrite bind_eq in ER. unfold plain_import in ER. rewrite bind_eq in ER. cbn [gets] in ER.
  assert (ED : dmem (t_contract t) (s_mods s4) = false) by (rewrite M4; reflexivity). rewrite ED in ER.
  destruct (l_sysmod L (t_contract t)).
  { right. rewrite bind_eq in ER. unfold hosted, imported in ER. cbn [modify] in ER. rewrite bind_eq in ER. cbn [gets] in ER.
    cbn [s_mods note set_log set_hosts] in ER. rewrite M4 in ER. cbn [dget] in ER. rewrite HH in ER. cbn [raise] in ER. subst R. cbn [fst snd is_ok]. split; [reflexivity|].
    eexists. split; [cbn [s_log note set_log set_hosts]; rewrite G5; reflexivity|constructor; [exact I|constructor]]. }
  rewrite bind_eq in ER. pose proof (calm_get (make_key (t_contract t) CODE_KEY []) s4) as [C1 C2]. unfold get_contract, get_var in ER.
  destruct (read_same (get (make_key (t_contract t) CODE_KEY [])) s4) as [G6 _].
  assert (EG : fst (on_w (on_drv (get (make_key (t_contract t) CODE_KEY []))) s4) = reads_as s (t_contract t ++ u ".__code__")).
  { unfold on_w, on_drv, reads_as. rewrite get_result, <- code_key, <- F4, <- get_result. unfold s_drv. destruct (get _ (w_drv (s_w s4))). reflexivity. }
  destruct (on_w (on_drv (get (make_key (t_contract t) CODE_KEY []))) s4) as [[c|e] s6]; cbn [fst snd] in *.
  2:{ right. subst R. split; [reflexivity|apply ql_refl; cbn [snd]; congruence]. }
  destruct c; cbn [is_none negb] in ER; try (left; eexists; split; [symmetry; exact EG|discriminate]).
  right. rewrite HH in ER. subst R. split; [reflexivity|apply ql_refl; cbn [snd raise]; congruence].
Qed.
(** the log of an execution is that of its phases *)
Lemma execute_log L fuel g t s r s' : execute L fuel g t s = (r, s') ->
  (refused g t = true /\ s' = began s /\ is_ok r = false) \/
  (refused g t = false /\ exists r1 s1, phases L fuel g t (began s) r1 s1 /\ s_log s' = s_log s1 /\ (forall out, r = Ok out -> o_status out = if is_ok r1 then 0%Z else 1%Z)).
Proof.
  unfold execute. fold (began s). change (upd_d (fun v => clear_events (clear_transaction_writes v)) (fresh_log s)) with (began s). intros E.
  destruct (refused g t); [injection E as <- <-; left; split; [reflexivity|split; reflexivity]|]. right. split; [reflexivity|].
  unfold transact in E. destruct (attempt L fuel g t (began s)) as [x s1] eqn:EA. apply attempt_phases in EA. exists x, s1. split; [exact EA|].
  set (saved := dv_writes (s_drv (fresh_log s))) in E.
  assert (HF : forall used w s0 (st : Z) (out : dict pyval -> mach -> output), s_log s0 = s_log s1 -> (forall w y, o_status (out w y) = st) ->
    (match charge_fee L g t used w s0 with (Err e, y) => (Err e, y) | (Ok writes, y) => (Ok (out writes y), wind_up y) end) = (r, s') ->
    s_log s' = s_log s1 /\ (forall o, r = Ok o -> o_status o = st)).
  { intros used w s0 st out G1 G2 E1. pose proof (fee_same L g t used w s0) as [G3 G4]. destruct (charge_fee L g t used w s0) as [[w'|e] y]; cbn [snd] in *; injection E1 as <- <-.
    - split; [cbn; congruence|]. intros o E1. injection E1 as <-. apply G2.
    - split; [congruence|]. discriminate. }
  destruct x as [[[v w] ev]|e].
  - eapply (HF _ _ (finally s1) 0%Z _ eq_refl); [|exact E]. reflexivity.
  - assert (HR : e <> EBase -> s_log s' = s_log s1 /\ (forall o, r = Ok o -> o_status o = 1%Z)).
    { intros NE. assert (E' : (match charge_fee L g t (stamps_used t (finally (revert t saved s1))) [] (finally (revert t saved s1)) with (Err e, y) => (Err e, y) | (Ok writes, y) => (@Ok output ((fun writes y => mkOut 1 (Err e) (stamps_used t (finally (revert t saved s1))) writes (dv_reads (s_drv y)) []) writes y), wind_up y) end) = (r, s')) by (destruct e; try exact E; exfalso; apply NE; reflexivity).
      eapply (HF _ _ (finally (revert t saved s1)) 1%Z _ eq_refl); [|exact E']. reflexivity. }
    cbn [is_ok]. destruct e; try (apply HR; discriminate). injection E as <- <-. split; [reflexivity|discriminate].
Qed.
(** Full statement: execute runs only functions of contracts stored in the database.
    Proved when the contract name is not the name of a Python module: a transaction for a contract that is not stored runs no
    code at all and fails, *)
Theorem C52_not_stored_partial L fuel g t s r s' : s_mods s = [] -> l_host L (t_contract t) = None -> execute L fuel g t s = (r, s') ->
  ~ has_code s (t_contract t) -> nothing_ran (s_log s') /\ (forall out, r = Ok out -> o_status out = 1%Z).
Proof.
  intros HM HH HE HN. assert (HN' : ~ has_code (began s) (t_contract t)) by (rewrite began_code; exact HN). assert (HM' : s_mods (began s) = []) by exact HM.
  destruct (prepare_stored L fuel g t (began s) HM' HH) as [H|[HP HL]]; [contradiction (HN' H)|].
  apply execute_log in HE as [(_ & -> & HR)|(_ & r1 & s1 & HPh & HL1 & HS)].
  { split; [constructor|]. intros out ->. discriminate HR. }
  destruct HPh as [e s1 EP|kw s2 e s1 EP EC|kw s2 v s4 e s1 EP EC HA EM|kw s2 v s4 s1 EP EC EM]; rewrite EP in HP, HL; try discriminate HP.
  split; [|exact HS]. destruct HL as (l & HL2 & HL3). cbn [snd] in HL2. rewrite HL1, HL2. exact HL3.
Qed.
Lemma entry_called L fuel t kw s f md : dget (t_contract t) (s_mods s) = Some (Some md) -> dget (t_function t) (m_funcs md) = Some f ->
  entry_call L fuel t kw s = invoke (deeper L fuel) [] (t_contract t) f kw s.
Proof. intros H1 H2. unfold entry_call, call. rewrite bind_eq. cbn [gets]. rewrite H1, H2. reflexivity. Qed.
Lemma fetch_stored L n s md : fst (fetch L n s) = Ok md -> exists blob,
  (reads_as s (n ++ u ".__compiled__") = Ok (VBytes blob) \/ exists hex, reads_as s (n ++ u ".__compiled__") = Ok (VStr hex) /\ fromhex hex = Ok blob) /\ l_interp L blob = Ok md.
Proof.
  unfold fetch. rewrite bind_eq. unfold on_w, on_drv, get_compiled, get_var. rewrite compiled_key. fold (s_drv s). unfold reads_as.
  destruct (get (n ++ u ".__compiled__") (s_drv s)) as [[x|e] v1]; [|discriminate]. rewrite bind_eq. unfold lift. cbn [fst].
  destruct x as [|b|z|t1|sb|bb|d|x|dt|td|l|l|l|x]; try discriminate.
  - destruct (fromhex sb) as [b|e] eqn:EX; [|discriminate]. intros H. exists b. split; [right; exists sb; auto|exact H].
  - intros H. eexists. split; [left; reflexivity|exact H].
Qed.
(** ...and a successful transaction ran the function of that name in the stored code *)
Theorem C52_entry_partial L fuel g t s out s' : s_mods s = [] -> l_host L (t_contract t) = None -> execute L fuel g t s = (Ok out, s') -> o_status out = 0%Z ->
  exists f kw s1 s2 v, stored_function L s (t_contract t) (t_function t) f /\ invoke (deeper L fuel) [] (t_contract t) f kw s1 = (Ok v, s2) /\ o_result out = Ok v.
Proof.
  intros HM HH HE HS. assert (HM' : s_mods (began s) = []) by exact HM.
  apply execute_inv in HE as (_ & r & s1 & w & s3 & HP & _ & _ & _ & ->). cbn [o_status o_result] in *.
  destruct HP as [e s1 EP|kw s2 e s1 EP EC|kw s2 v s4 e s1 EP EC HA EM|kw s2 v s4 s1 EP EC EM]; try discriminate HS.
  destruct (prepare_stored L fuel g t (began s) HM' HH) as [HC|[HX _]]; [|rewrite EP in HX; discriminate HX]. rewrite began_code in HC.
  pose proof (prepare_found L fuel g t (began s) kw s2 HM' EP) as HF.
  unfold entry_call, call in EC. rewrite bind_eq in EC. cbn [gets] in EC. rewrite primed_mods in EC.
  destruct (dget (t_contract t) (s_mods s2)) as [[md|]|] eqn:ED; [|contradiction|].
  2:{ rewrite bind_eq in EC. cbn [gets] in EC. destruct (str_mem (t_contract t) (s_hosts (primed g t s2))); [|discriminate EC]. rewrite HH in EC. discriminate EC. }
  destruct (dget (t_function t) (m_funcs md)) as [f|] eqn:EFn; [|discriminate EC].
  exists f, kw, (primed g t s2), s4, v. split; [|split; [exact EC|reflexivity]]. split; [exact HC|].
  destruct (fetch_stored _ _ _ _ HF) as (blob & HB & HI). exists blob, md. rewrite began_reads in HB. auto.
Qed.
(** REFUTED in general: execute('os', 'system') calls Python's own module *)
Theorem C52_refuted : exists L g t s out s', idle s /\ s_mods s = [] /\ ~ has_code s (t_contract t) /\ execute L 10 g t s = (Ok out, s') /\ o_status out = 0%Z /\ ~ no_host_ran (s_log s').
Proof.
  pose (L := demo []). pose (t := call_of "bob" "os" "system"). pose (s := idle_mach (funded "bob" 100)).
  assert (H : match execute L 10 cfg0 t s with (Ok out, s') => o_status out = 0%Z /\ existsb (fun o => match o with OHost _ _ => true | _ => false end) (s_log s') = true | _ => False end) by (vm_compute; split; reflexivity).
  destruct (execute L 10 cfg0 t s) as [[out|e] s'] eqn:E; [|contradiction]. destruct H as [H1 H2].
  exists L, cfg0, t, s, out, s'. split; [constructor; reflexivity|]. split; [reflexivity|].
  split; [intros (code & H & HN); vm_compute in H; injection H as <-; apply HN; reflexivity|]. split; [exact E|]. split; [exact H1|].
  intros HF. apply existsb_exists in H2 as (o & Ho & HO). unfold no_host_ran in HF. rewrite Forall_forall in HF. specialize (HF o Ho). destruct o; try discriminate HO. exact HF.
Qed.
Definition demo_f := only_f (u "con_a") (put "con_a" "v" (VInt 1) (PRet (VInt 7))).
Example C52_example : let L := demo [(u "con_a", demo_f)] in let s := idle_mach (deployed (u "con_a") (u "con_a") VNone ++ funded "bob" 100) in
  s_mods s = [] /\ l_host L (u "con_a") = None /\
  (match execute L 10 cfg0 (call_of "bob" "con_a" "f") s with (Ok out, _) => (o_status out, o_result out) = (0%Z, Ok (VInt 7)) | _ => False end) /\
  (match execute L 10 cfg0 (call_of "bob" "con_b" "f") s with (Ok out, _) => o_status out = 1%Z | _ => False end).
Proof. cbv zeta. split; [reflexivity|]. split; [reflexivity|]. split; vm_compute; reflexivity. Qed.

(** ** C66 *)
Lemma read_code n s : fst (on_w (on_drv (get_contract n)) s) = reads_as s (n ++ u ".__code__") /\ calm s (snd (on_w (on_drv (get_contract n)) s)) /\ conf s (snd (on_w (on_drv (get_contract n)) s)).
Proof.
  split; [|split; [apply calm_get|apply conf_read]]. unfold on_w, on_drv, reads_as, get_contract, get_var. rewrite code_key. fold (s_drv s). destruct (get _ (s_drv s)). reflexivity.
Qed.
Lemma not_stored s n : ~ has_code s n -> reads_as s (n ++ u ".__code__") = Ok VNone \/ exists e, reads_as s (n ++ u ".__code__") = Err e.
Proof.
  intros H. destruct (reads_as s (n ++ u ".__code__")) as [c|e] eqn:E; [|right; eauto]. left. destruct c; try reflexivity; exfalso; apply H; eexists; (split; [exact E|discriminate]).
Qed.
(** While contract functions run ([s_restricted]), an import statement of a name that is neither loaded nor stored raises and runs nothing; *)
Theorem C66_statement L R ch n s : s_restricted s = true -> dmem n (s_mods s) = false -> ~ has_code s n ->
  exists e, fst (import L R Stmt ch n s) = Err e /\ s_mods (snd (import L R Stmt ch n s)) = s_mods s /\ s_hosts (snd (import L R Stmt ch n s)) = s_hosts s /\ s_log (snd (import L R Stmt ch n s)) = s_log s.
Proof.
  intros HR HM HN. unfold import. rewrite bind_eq. cbn [gets]. rewrite HR. unfold restricted_import. rewrite bind_eq. cbn [gets]. rewrite HM.
  destruct (l_sysmod L n); [exists EImport; split; [reflexivity|]; split; [reflexivity|]; split; reflexivity|].
  rewrite bind_eq. destruct (read_code n s) as (H1 & _). pose proof (on_w_mods (on_drv (get_contract n)) s) as M. pose proof (on_w_hosts (on_drv (get_contract n)) s) as HH. destruct (read_same (get_contract n) s) as [HL _].
  destruct (on_w (on_drv (get_contract n)) s) as [[c|e] s1]; cbn [fst snd] in *.
  - destruct (not_stored s n HN) as [E|(e & E)]; rewrite E in H1; [|discriminate H1]. injection H1 as ->. cbn [is_none negb raise fst snd]. eexists. split; [reflexivity|]. auto.
  - eexists. split; [reflexivity|]. auto.
Qed.
(** importlib.import_module of a name that is not stored raises in every state; *)
Theorem C66_import_module L R ch n s : ~ has_code s n ->
  exists e, fst (import L R Lib ch n s) = Err e /\ s_mods (snd (import L R Lib ch n s)) = s_mods s /\ s_hosts (snd (import L R Lib ch n s)) = s_hosts s /\ s_log (snd (import L R Lib ch n s)) = s_log s.
Proof.
  intros HN. assert (ER : forall e, exists e', fst (@Err unit e, s) = Err e' /\ s_mods (snd (@Err unit e, s)) = s_mods s /\ s_hosts (snd (@Err unit e, s)) = s_hosts s /\ s_log (snd (@Err unit e, s)) = s_log s) by (intros e; exists e; repeat split).
  unfold import, lib_import. rewrite bind_eq. unfold lift. destruct (assertr (l_name_ok L n)); [|apply ER]. rewrite bind_eq. destruct (assertr (l_islower L n)); [|apply ER].
  rewrite bind_eq. destruct (l_stdlib L n); [apply ER|]. cbn [ret]. rewrite bind_eq. destruct (startswith n (u "_")); [apply ER|]. cbn [ret]. clear ER.
  rewrite bind_eq. destruct (read_code n s) as (H1 & _). pose proof (on_w_mods (on_drv (get_contract n)) s) as M. pose proof (on_w_hosts (on_drv (get_contract n)) s) as HH. destruct (read_same (get_contract n) s) as [HL _].
  destruct (on_w (on_drv (get_contract n)) s) as [[c|e] s1]; cbn [fst snd] in *.
  - destruct (not_stored s n HN) as [E|(e & E)]; rewrite E in H1; [|discriminate H1]. injection H1 as ->. cbn [is_none raise fst snd]. eexists. split; [reflexivity|]. auto.
  - eexists. split; [reflexivity|]. auto.
Qed.
(** an import that succeeds gives the module of the stored code; *)
Lemma load_stored L R ch n s s' : load L R ch n s = (Ok tt, s') -> exists md, dget n (s_mods s') = Some (Some md) /\ fst (fetch L n s) = Ok md.
Proof.
  unfold load. set (s0 := set_mods _ s). rewrite bind_eq. pose proof (fetch_find L n s0 s eq_refl) as HF. destruct (fetch L n s0) as [[md|e] s1]; cbn [fst] in HF; [|discriminate].
  rewrite bind_eq. destruct (R (n :: ch) (m_init md) s1) as [[v|e] s2]; [|discriminate]. cbn [ret]. intros E. injection E as <-. exists md. split; [|symmetry; exact HF]. cbn. rewrite dget_dset, str_eqb_refl. reflexivity.
Qed.
Lemma plain_stored L R kd ch n s s' : plain_import L R kd ch n s = (Ok tt, s') -> dmem n (s_mods s) = false -> l_sysmod L n = false -> has_code s n ->
  exists md, dget n (s_mods s') = Some (Some md) /\ fst (fetch L n s) = Ok md.
Proof.
  intros E HM HS (code & HC & HN). unfold plain_import in E. rewrite bind_eq in E. cbn [gets] in E. rewrite HM, HS in E. rewrite bind_eq in E.
  destruct (read_code n s) as (H1 & [_ H2] & _). destruct (on_w (on_drv (get_contract n)) s) as [[c|e] s1]; cbn [fst snd] in *; [|discriminate E].
  rewrite HC in H1. injection H1 as ->. assert (EN : is_none code = false) by (destruct code; [contradiction HN; reflexivity|reflexivity..]). rewrite EN in E. cbn [negb] in E.
  rewrite bind_eq in E. destruct (load L R ch n s1) as [[[]|e] s2] eqn:EL; [|discriminate E]. unfold imported, modify in E. injection E as <-.
  destruct (load_stored _ _ _ _ _ _ EL) as (md & A & B). exists md. split; [exact A|]. rewrite <- B. apply fetch_find. symmetry. apply H2.
Qed.
Theorem C66_loaded L R kd ch n s s' : import L R kd ch n s = (Ok tt, s') -> (kd = Stmt -> s_restricted s = true) -> dmem n (s_mods s) = false -> l_sysmod L n = false ->
  has_code s n /\ exists md, dget n (s_mods s') = Some (Some md) /\ fst (fetch L n s) = Ok md.
Proof.
  intros E HR HM HS. assert (HC : has_code s n).
  { destruct (reads_as s (n ++ u ".__code__")) as [c|e] eqn:EC; [destruct (is_none c) eqn:EN|].
    2:{ exists c. split; [exact EC|]. intros ->. discriminate EN. }
    all: exfalso; assert (HN : ~ has_code s n) by (intros (x & X1 & X2); rewrite EC in X1; first [discriminate X1 | injection X1 as ->; destruct x; try discriminate EN; apply X2; reflexivity]).
    all: destruct kd; [destruct (C66_statement L R ch n s (HR eq_refl) HM HN) as (e' & X & _)|destruct (C66_import_module L R ch n s HN) as (e' & X & _)]; rewrite E in X; discriminate X. }
  split; [exact HC|]. destruct kd; unfold import in E.
  - rewrite bind_eq in E. cbn [gets] in E. rewrite (HR eq_refl) in E. unfold restricted_import in E. rewrite bind_eq in E. cbn [gets] in E. rewrite HM, HS in E. rewrite bind_eq in E.
    destruct HC as (code & HC & HN). destruct (read_code n s) as (H1 & [_ H2] & _). destruct (on_w (on_drv (get_contract n)) s) as [[c|e] s1]; cbn [fst snd] in *; [|discriminate E].
    rewrite HC in H1. injection H1 as ->. assert (EN : is_none code = false) by (destruct code; [contradiction HN; reflexivity|reflexivity..]). rewrite EN in E. cbn [negb] in E.
    rewrite bind_eq in E. destruct (load L R ch n s1) as [[[]|e] s2] eqn:EL; [|discriminate E]. unfold imported, modify in E. injection E as <-.
    destruct (load_stored _ _ _ _ _ _ EL) as (md & A & B). exists md. split; [exact A|]. rewrite <- B. apply fetch_find. symmetry. apply H2.
  - unfold lib_import in E. rewrite bind_eq in E. unfold lift in E. destruct (assertr (l_name_ok L n)); [|discriminate E]. rewrite bind_eq in E. destruct (assertr (l_islower L n)); [|discriminate E].
    rewrite bind_eq in E. destruct (l_stdlib L n); [discriminate E|]. cbn [ret] in E. rewrite bind_eq in E. destruct (startswith n (u "_")); [discriminate E|]. cbn [ret] in E. rewrite bind_eq in E.
    destruct (read_code n s) as (H1 & [M1 H2] & _). destruct (on_w (on_drv (get_contract n)) s) as [[c|e] s1]; cbn [fst snd] in *; [|discriminate E]. destruct (is_none c); [discriminate E|].
    assert (HC1 : has_code s1 n). { destruct HC as (x & X1 & X2). exists x. split; [|exact X2]. rewrite <- X1. unfold reads_as. rewrite !get_result. apply H2. }
    rewrite <- M1 in HM. destruct (plain_stored _ _ _ _ _ _ _ E HM HS HC1) as (md & A & B). exists md. split; [exact A|]. rewrite <- B. apply fetch_find. symmetry. apply H2.
Qed.
(** and so all code that runs under restricted imports, whatever it does, reaches no Python module. *)
Theorem C66_run L fuel ch p s : loaded_is_stdlib L -> s_restricted s = true -> s_hosts s = [] ->
  s_hosts (snd (run L fuel ch p s)) = [] /\ exists l, s_log (snd (run L fuel ch p s)) = s_log s ++ l /\ no_host_ran l.
Proof.
  intros HS HR HH. assert (HG : good (fun _ => True) true s) by (constructor; [auto|exact HH|intros ???; exact I]).
  destruct (run_conf L (fun _ => True) (fun _ => True) true HS (fun _ _ _ => I) (fun _ _ => each_any _) (fun _ _ _ _ _ _ => each_any _) (fun _ _ _ _ _ _ _ _ _ => each_any _)
    (fun _ _ _ _ _ _ _ _ _ _ => each_any _) (fun _ _ _ => or_introl eq_refl) fuel ch p (each_any _) s HG) as [[A B C] _]. split; [apply B; exact HH|exact C].
Qed.
Section Confined_tx.
  Variables (L : lang) (fuel : nat) (g : cfg) (t : txn).
  Hypothesis SYS : loaded_is_stdlib L.
  Definition tops_ok (md : modul) : Prop := each (imports_no_python L) (m_init md).
  Hypothesis TOPS : forall b md, l_interp L b = Ok md -> tops_ok md.
  Lemma top_conf ch p : each (imports_no_python L) p -> cn tops_ok false pyval ch (deeper L fuel ch p).
  Proof using SYS TOPS.
    apply deeper_conf; [exact SYS|exact TOPS|intros md H; exact H|..].
    - intros md f a (n & c & x & k & [[] _]).
    - intros md n f a c k [[] _].
    - intros x md n f a c k [[] _].
    - intros n k [_ H]. right. exact H.
  Qed.
  Lemma prepare_conf s : s_hosts s = [] -> mods_all tops_ok (s_mods s) -> l_sysmod L (t_contract t) = false -> l_host L (t_contract t) = None ->
    conf s (snd (prepare L fuel g t s)) /\ s_hosts (snd (prepare L fuel g t s)) = [].
  Proof using SYS TOPS.
    intros HH HM H1 H2. pose (P := fun (s : mach) (b : bool) (s' : mach) => s_hosts s = [] -> mods_all tops_ok (s_mods s) -> conf s s' /\ mods_all tops_ok (s_mods s')).
    assert (H : P s (is_ok (fst (prepare L fuel g t s))) (snd (prepare L fuel g t s))).
    2:{ destruct (H HH HM) as [A B]. split; [exact A|apply A; exact HH]. }
    apply prepare_rel; unfold P; clear HM HH P.
    - intros x b A B. split; [apply conf_refl|exact B].
    - intros x b y z A1 A2 B1 B2. destruct (A1 B1 B2) as [C1 C2]. destruct (A2 (cf_hosts _ _ C1 B1) C2) as [D1 D2]. split; [eapply conf_trans; eassumption|exact D2].
    - intros x y b [_ _ GR _] EM EH EL B1 B2. split; [|rewrite EM; exact B2]. apply conf_same; assumption.
    - intros x b e B1 B2. split; [apply conf_same; reflexivity|exact B2].
    - intros x B1 B2. apply cn_plain with (QM := tops_ok) (rq := false); auto.
      + intros md Hmd. apply top_conf. exact Hmd.
      + constructor; [discriminate|exact B1|exact B2].
  Qed.
End Confined_tx.
(** Full statement: an import in contract code yields only a module loaded from a stored contract.
    Proved for whole transactions when the contract's name is not that of a Python module and the top-level code of contracts, which runs before
    imports are restricted, calls nothing and has no import statement naming a Python module: no Python module is imported or called. *)
Theorem C66_transaction_partial L fuel g t s r s' : loaded_is_stdlib L -> (forall b md, l_interp L b = Ok md -> each (imports_no_python L) (m_init md)) ->
  s_mods s = [] -> l_sysmod L (t_contract t) = false -> l_host L (t_contract t) = None -> execute L fuel g t s = (r, s') -> no_host_ran (s_log s').
Proof.
  intros HS HT HM H1 H2 HE. apply execute_log in HE as [(_ & -> & _)|(_ & r1 & s1 & HP & -> & _)]; [constructor|].
  assert (HM0 : mods_all (tops_ok L) (s_mods (began s))) by (intros n md; change (s_mods (began s)) with (s_mods s); rewrite HM; discriminate).
  destruct (prepare_conf L fuel g t HS HT (began s) eq_refl HM0 H1 H2) as [[_ _ (l & CL & CF)] CH].
  assert (HX : forall kw s2 x s3, prepare L fuel g t (began s) = (Ok kw, s2) -> entry_call L fuel t kw (primed g t s2) = (x, s3) -> no_host_ran (s_log s3)).
  { intros kw s2 x s3 EP EC. rewrite EP in CL, CH. cbn [snd] in CL, CH. unfold entry_call in EC.
    assert (HG : good (fun _ => True) true (primed g t s2)) by (constructor; [reflexivity|exact CH|intros ???; exact I]).
    destruct (call_conf L (fun _ => True) (fun _ => True) true HS (fun _ _ _ => I) (fun _ _ => each_any _) (fun _ _ _ _ _ _ => each_any _) (fun _ _ _ _ _ _ _ _ _ => each_any _)
      (fun _ _ _ _ _ _ _ _ _ _ => each_any _) (fun _ _ _ => or_introl eq_refl) fuel [] (t_contract t) (t_function t) kw (fun _ => PRet VNone) I _ HG) as [[_ _ (l' & CL' & CF')] _].
    rewrite EC in CL'. cbn [snd] in CL'. rewrite CL', primed_log, CL. apply Forall_app. split; [exact CF|exact CF']. }
  destruct HP as [e s1 EP|kw s2 e s1 EP EC|kw s2 v s4 e s1 EP EC HA EM|kw s2 v s4 s1 EP EC EM].
  - rewrite EP in CL. cbn [snd] in CL. rewrite CL. exact CF.
  - exact (HX _ _ _ _ EP EC).
  - assert (EM' : (if t_auto t then on_w (on_drv commit) else ret tt) (stopped s4) = (Err e, s1)) by (rewrite HA; exact EM). destruct (auto_same t s4 _ _ EM') as (-> & _). exact (HX _ _ _ _ EP EC).
  - destruct (auto_same t s4 _ _ EM) as (-> & _). exact (HX _ _ _ _ EP EC).
Qed.
(** REFUTED: the top level of the called contract runs with Python's own import.  [con_x] is, in Python,
    'if ctx.this != "submission": import os; os.system()': it does nothing when it is submitted. *)
Definition escaping := mkMod (PCtx (fun cs => if ostr_eqb (c_this cs) (Some (u "submission")) then PRet VNone else PImport Stmt (u "os") (PCall (u "os") (u "system") [] (fun _ => PRet VNone)))) None
  [(u "f", mkFunc (Some (u "con_x")) (fun _ => PRet VNone))].
Definition ran_host (s : mach) : bool := existsb (fun o => match o with OHost _ _ => true | _ => false end) (s_log s).
Lemma ran_host_not s : ran_host s = true -> ~ no_host_ran (s_log s).
Proof.
  intros H2 HF. apply existsb_exists in H2 as (o & Ho & HO). unfold no_host_ran in HF. rewrite Forall_forall in HF. specialize (HF o Ho). destruct o; try discriminate HO. exact HF.
Qed.
Theorem C66_top_level_refuted : exists L g t s out s', loaded_is_stdlib L /\ idle s /\ s_mods s = [] /\ l_sysmod L (t_contract t) = false /\ l_host L (t_contract t) = None /\
  execute L 10 g t s = (Ok out, s') /\ o_status out = 0%Z /\ ~ no_host_ran (s_log s').
Proof.
  pose (L := demo [(u "con_x", escaping)]). pose (t := call_of "bob" "con_x" "f"). pose (s := idle_mach (deployed (u "con_x") (u "con_x") VNone ++ funded "bob" 100)).
  assert (H : match execute L 10 cfg0 t s with (Ok out, s') => o_status out = 0%Z /\ ran_host s' = true | _ => False end) by (vm_compute; split; reflexivity).
  destruct (execute L 10 cfg0 t s) as [[out|e] s'] eqn:E; [|contradiction]. destruct H as [H1 H2].
  exists L, cfg0, t, s, out, s'. split; [intros n H; exact H|]. split; [constructor; reflexivity|]. split; [reflexivity|]. split; [vm_compute; reflexivity|]. split; [vm_compute; reflexivity|]. split; [exact E|]. split; [exact H1|].
  apply ran_host_not. exact H2.
Qed.
(** REFUTED: importlib.import_module of a stored contract that shares its name with a loaded Python module outside the standard library (psutil,
    which the tracer loads) gives the Python module *)
Definition with_psutil (mods : dict modul) : lang := let d := demo mods in mkLang (l_compile d) (l_marshal d) (l_interp d)
  (fun n => if str_eqb n (u "psutil") then Some os_module else l_host d n) (fun n => (str_eqb n (u "psutil") || l_sysmod d n)%bool) (l_stdlib d) (l_name_ok d) (l_islower d) (l_rand d) (l_ostr d) (l_ord d) (l_boot d) (l_fdiv d).
Definition importing := only_f (u "con_x") (PImport Lib (u "psutil") (PCall (u "psutil") (u "system") [] (fun _ => PRet VNone))).
Theorem C66_shadow_refuted : exists L g t s out s', (forall b md, l_interp L b = Ok md -> each (imports_no_python L) (m_init md)) /\ idle s /\ s_mods s = [] /\ l_sysmod L (t_contract t) = false /\ l_host L (t_contract t) = None /\
  execute L 10 g t s = (Ok out, s') /\ o_status out = 0%Z /\ ~ no_host_ran (s_log s').
Proof.
  pose (L := with_psutil [(u "con_x", importing); (u "psutil", only_f (u "psutil") (PRet VNone))]). pose (t := call_of "bob" "con_x" "f").
  pose (s := idle_mach (deployed (u "con_x") (u "con_x") VNone ++ deployed (u "psutil") (u "psutil") VNone ++ funded "bob" 100)).
  assert (H : match execute L 10 cfg0 t s with (Ok out, s') => o_status out = 0%Z /\ ran_host s' = true | _ => False end) by (vm_compute; split; reflexivity).
  destruct (execute L 10 cfg0 t s) as [[out|e] s'] eqn:E; [|contradiction]. destruct H as [H1 H2].
  exists L, cfg0, t, s, out, s'. split.
  { intros b md. unfold L, with_psutil, demo. cbn [l_interp]. cbn [dget]. destruct (str_eqb b (u "con_x")); [intros X; injection X as <-; repeat split|].
    destruct (str_eqb b (u "psutil")); [intros X; injection X as <-; repeat split|discriminate]. }
  split; [constructor; reflexivity|]. split; [reflexivity|]. split; [vm_compute; reflexivity|]. split; [vm_compute; reflexivity|]. split; [exact E|]. split; [exact H1|].
  apply ran_host_not. exact H2.
Qed.
(** a contract that imports another one at its top level *)
Definition importer := mkMod (PImport Stmt (u "con_a") (PRet VNone)) None [(u "f", mkFunc (Some (u "con_x")) (fun _ => PCall (u "con_a") (u "f") [] (fun v => PRet v)))].
Definition imp_lang := demo [(u "con_x", importer); (u "con_a", demo_f)].
Example C66_example : loaded_is_stdlib imp_lang /\ (forall b md, l_interp imp_lang b = Ok md -> each (imports_no_python imp_lang) (m_init md)) /\
  match execute imp_lang 10 cfg0 (call_of "bob" "con_x" "f") (idle_mach (deployed (u "con_x") (u "con_x") VNone ++ deployed (u "con_a") (u "con_a") VNone ++ funded "bob" 100)) with
  | (Ok out, s') => (o_status out, o_result out) = (0%Z, Ok (VInt 7)) | _ => False end.
Proof.
  split; [intros n H; exact H|]. split; [|vm_compute; reflexivity].
  intros b md. unfold imp_lang, demo. cbn [l_interp]. cbn [dget]. destruct (str_eqb b (u "con_x")); [intros X; injection X as <-; repeat split|].
  destruct (str_eqb b (u "con_a")); [intros X; injection X as <-; repeat split|discriminate].
Qed.
