(** * C95: metered transactions end *)
From Verif Require Import Model.Base Model.State Model.Dec Model.Time Model.Value Model.Encoder Model.Hdf5 Model.Runtime Model.Driver Model.Orm Model.Exec Model.Executor.
From Verif Require Import Spec.OrmSpec Spec.ExecSpec Proofs.BaseFacts Proofs.DriverFacts Proofs.OrmFacts Proofs.ExecFacts Proofs.ExecRel Proofs.MeterFacts Proofs.TxFacts Proofs.PhaseRel.
From Verif Require Import Properties.Demo Properties.MeterProps Properties.ExecProps.
From Coq Require Import Lia.
Local Open Scope Z_scope.

(** Lines of contract code *)
Definition contract_lines (l : list obs) : Z := Z.of_nat (List.length (filter (fun o => match o with OLine e => le_contract e | _ => false end) l)).
Lemma cl_app a b : contract_lines (a ++ b) = contract_lines a + contract_lines b.
Proof. unfold contract_lines. rewrite filter_app, app_length. lia. Qed.
Lemma cu_one op : 1 <= cu_cost op.
Proof.
  unfold cu_cost. destruct (N.eqb op 255); [lia|].
  assert (H : Forall (fun x => 1 <= x) cu_table) by (unfold cu_table; repeat (constructor; [discriminate|]); constructor).
  destruct (nth_in_or_default (N.to_nat op) cu_table 1%Z) as [Hi| ->]; [|lia]. rewrite Forall_forall in H. apply H, Hi.
Qed.
(** every line of contract code costs something *)
Lemma cl_cost l : contract_lines l <= line_costs l.
Proof.
  induction l as [|o l IH]; [reflexivity|]. change (o :: l) with ([o] ++ l). rewrite cl_app, line_costs_app.
  assert (contract_lines [o] <= line_costs [o]); [|lia]. destruct o as [e| | | |]; try (unfold contract_lines, line_costs; cbn [filter fold_right line_cost List.length]; lia).
  unfold contract_lines. cbn [line_costs fold_right line_cost filter]. destruct (le_contract e); cbn [List.length]; [pose proof (cu_one (le_opcode e)); lia|lia].
Qed.
(** ** Along every computation, also one that raises *)
Definition fits (s : mach) : Prop := tr_calls (tracer_of s) <= 800000 /\ cost_of s <= tr_supplied (tracer_of s) /\ cost_of s <= 6500000.
Definition bounded (s : mach) (ok : bool) (s' : mach) : Prop :=
  exists l, s_log s' = s_log s ++ l /\ (tr_started (tracer_of s) = true -> fits s ->
    (ok = true -> tr_started (tracer_of s') = true /\ fits s' /\ tr_supplied (tracer_of s') = tr_supplied (tracer_of s) /\
       tr_calls (tracer_of s') = tr_calls (tracer_of s) + line_count l /\ cost_of s + contract_lines l <= cost_of s') /\
    line_count l <= 800001 - tr_calls (tracer_of s) /\ contract_lines l <= Z.min (tr_supplied (tracer_of s)) 6500000 - cost_of s + 1).
Lemma no_act_cl l : Forall no_act l -> contract_lines l = 0.
Proof. induction 1 as [|o l Ho _ IH]; [reflexivity|]. change (o :: l) with ([o] ++ l). rewrite cl_app, IH. destruct o; cbn in Ho |- *; contradiction || reflexivity. Qed.
Lemma bounded_line e s : bounded s (is_ok (fst (line e s))) (snd (line e s)).
Proof.
  exists [OLine e]. split; [unfold line, on_w; destruct (on_rt (on_tracer (on_line e)) (s_w (note (OLine e) s))); reflexivity|].
  intros HS (F1 & F2 & F3). assert (HL : line_count [OLine e] = 1) by reflexivity.
  assert (HC : contract_lines [OLine e] = if le_contract e then 1 else 0) by (unfold contract_lines; cbn [filter]; destruct (le_contract e); reflexivity).
  split; [|rewrite HL, HC; destruct (le_contract e); lia]. intros HO. rewrite HL, HC.
  unfold line, on_w, on_rt, on_tracer, fits, cost_of, tracer_of, s_rt in *. cbn [s_w note set_log] in *.
  destruct (on_line_tmon e (rt_tracer (w_rt (s_w s)))) as [_ HSu _ _ HM _]. destruct (on_line e (rt_tracer (w_rt (s_w s)))) as [x t']. cbn [fst snd w_rt s_w set_w rt_tracer set_tracer set_log] in *.
  destruct (HM HS HO) as (B1 & B2 & B3 & B4 & B5). unfold MAX_STAMPS, MAX_CALLS in *. destruct (B4 (conj F2 F3)) as [B6 B7]. specialize (B5 F1).
  assert (HX : (if le_contract e then 1 else 0) <= (if le_contract e then cu_cost (le_opcode e) else 0)) by (destruct (le_contract e); [apply cu_one|lia]).
  cbn. rewrite HSu. repeat split; try assumption; lia.
Qed.
Lemma bounded_act L a s : bounded s (is_ok (fst (act L a s))) (snd (act L a s)).
Proof.
  unfold act, on_w. pose proof (do_act_wmon L a (s_w s)) as [_ HSu HC _ HM]. destruct (do_act L a (s_w s)) as [[v|e] w']; cbn [fst snd is_ok] in *.
  - exists [OAct (get_state (s_ctx s)) a]. split; [reflexivity|]. intros HS (F1 & F2 & F3). cbn [contract_lines filter line_count List.length].
    unfold fits, cost_of, tracer_of, s_rt in *. cbn [s_w set_w note set_log] in *. destruct (HM HS eq_refl) as (B1 & B2 & B3 & B4 & B5 & _). unfold MAX_STAMPS, MAX_CALLS in *. destruct (B4 (conj F2 F3)) as [B6 B7]. specialize (B5 F1).
    unfold contract_lines, line_count. cbn [filter List.length]. rewrite HSu. split; [|lia]. intros _. repeat split; try assumption; lia.
  - exists []. split; [symmetry; apply app_nil_r|]. intros HS (F1 & F2 & F3). unfold contract_lines, line_count. cbn [filter List.length]. split; [discriminate|]. lia.
Qed.
Lemma bounded_glue s s' b : glue s s' -> bounded s b s'.
Proof.
  intros G. destruct (glue_rmon _ _ G) as [H1 H2]. destruct G as [_ _ _ (l & HL & Hl) _]. exists l. split; [exact HL|]. intros HS HF. destruct (no_act_count l Hl) as [N1 _]. rewrite N1, (no_act_cl l Hl).
  unfold fits, cost_of, tracer_of in *. rewrite H1. split; [intros _; repeat split; try apply HF; try assumption; lia|]. destruct HF as (F1 & F2 & F3). lia.
Qed.
Lemma bounded_trans s b s1 s2 : bounded s true s1 -> bounded s1 b s2 -> bounded s b s2.
Proof.
  intros (l & A1 & A2) (l' & B1 & B2). exists (l ++ l'). rewrite B1, A1, app_assoc. split; [reflexivity|]. intros HS HF. destruct (A2 HS HF) as [A3 _]. destruct (A3 eq_refl) as (C1 & C2 & C3 & C4 & C5).
  destruct (B2 C1 C2) as (D1 & D2 & D3). rewrite line_count_app, cl_app. split; [|lia]. intros Hb. destruct (D1 Hb) as (E1 & E2 & E3 & E4 & E5). split; [exact E1|]. split; [exact E2|]. lia.
Qed.
Lemma bounded_after s b s1 s2 : bounded s b s1 -> glue s1 s2 -> bounded s b s2.
Proof.
  intros (l & A1 & A2) G. destruct (glue_rmon _ _ G) as [H1 H2]. destruct G as [_ _ _ (l' & HL & Hl) _]. exists (l ++ l'). rewrite HL, A1, app_assoc. split; [reflexivity|]. intros HS HF.
  destruct (no_act_count l' Hl) as [N1 _]. rewrite line_count_app, cl_app, N1, (no_act_cl l' Hl), !Z.add_0_r. unfold fits, cost_of, tracer_of in *. rewrite H1. exact (A2 HS HF).
Qed.
Section Lift.
  Variables (L : lang) (fuel : nat).
  Hypothesis HL : lang_all (module_all no_guard) L.
  Ltac go thm := eapply thm with (Q := no_guard) (QM := module_all no_guard) (Rel := bounded);
    [ apply HL | apply HL | intros md H; apply H | intros md f a H; apply H | intros ??? ? H; apply H
    | intros; apply bounded_glue, glue_refl | exact bounded_trans | intros; apply bounded_glue; assumption | exact bounded_after
    | intros; apply bounded_act | intros; apply bounded_line | intros ls ok k0 s0 H; destruct H | .. ].
  Lemma call_bounded ch c fn args s : mods_all (module_all no_guard) (s_mods s) ->
    bounded s (is_ok (fst (call L (deeper L fuel) ch c fn args s))) (snd (call L (deeper L fuel) ch c fn args s)).
  Proof using HL.
    intros H2. assert (H : bounded s (is_ok (fst (call L (deeper L fuel) ch c fn args s))) (snd (call L (deeper L fuel) ch c fn args s)) /\
      mods_all (module_all no_guard) (s_mods (snd (call L (deeper L fuel) ch c fn args s)))); [|apply H].
    go call_rel; [|assumption]. instantiate (1 := fun _ => PRet VNone). exact I.
  Qed.
End Lift.
(** Whatever the outcome: after the contract has been loaded at most 800001 lines run, of which at most 1000 * stamps + 1 and at most 6500001 are contract code. *)
Theorem C95_bounded_partial L fuel g t s r s' : lang_all (module_all no_guard) L -> mods_all (module_all no_guard) (s_mods s) ->
  idle s -> metered g t = true -> 0 <= t_stamps t -> execute L fuel g t s = (r, s') ->
  exists loading running, s_log s' = loading ++ running /\ line_count running <= 800001 /\ contract_lines running <= Z.min (1000 * t_stamps t) 6500000 + 1 /\
    (refused g t = false -> forall kw sa, prepare L fuel g t (began s) = (Ok kw, sa) -> s_log sa = loading).
Proof.
  intros HL HM HI HG HT HE.
  assert (TR : tracer_of (began s) = tracer0) by exact (id_tracer _ HI).
  assert (EMPTY : line_count [] <= 800001 /\ contract_lines [] <= Z.min (1000 * t_stamps t) 6500000 + 1) by (unfold line_count, contract_lines; cbn; lia).
  assert (HA : forall sa x, prepare L fuel g t (began s) = (x, sa) -> mmon (began s) (is_ok x) sa /\ mods_all (module_all no_guard) (s_mods sa)).
  { intros sa x Ea. pose proof (prepare_held L fuel g t (began s) HL HM) as H. rewrite Ea in H. exact H. }
  apply execute_log in HE as [(HRf & -> & _)|(_ & r1 & s1 & HP & HLg & _)].
  { exists [], []. split; [reflexivity|]. split; [apply EMPTY|]. split; [apply EMPTY|]. congruence. }
  rewrite HLg.
  assert (HC : forall kw sa x sb, prepare L fuel g t (began s) = (Ok kw, sa) -> entry_call L fuel t kw (primed g t sa) = (x, sb) ->
    exists running, s_log sb = s_log sa ++ running /\ line_count running <= 800001 /\ contract_lines running <= Z.min (1000 * t_stamps t) 6500000 + 1).
  { intros kw sa x sb Ea Eb. destruct (HA _ _ Ea) as [[H1 _ _ _ _] HMa]. rewrite TR in H1. destruct (H1 eq_refl) as [T1 _].
    assert (TP : tracer_of (primed g t sa) = mkTr 0 (t_stamps t * 1000) 0 0 true 0).
    { unfold primed, tracer_of, upd_r, upd_w, s_rt, set_up. cbn. rewrite HG. cbn. unfold tracer_of, s_rt in T1. rewrite T1. reflexivity. }
    destruct (call_bounded L fuel HL [] (t_contract t) (t_function t) kw (primed g t sa) HMa) as (l & L1 & L2). unfold entry_call in Eb. rewrite Eb in L1. cbn [snd] in L1.
    exists l. split; [exact L1|]. unfold fits, cost_of in L2. rewrite TP in L2. cbn [tr_started tr_calls tr_cost tr_supplied] in L2. destruct L2 as (_ & L3 & L4); [reflexivity|lia|]. split; lia. }
  inversion HP as [e sa Ea X1|kw sa e sb Ea Eb X1|kw sa v sb e sc Ea Eb A Ec X1|kw sa v sb sc Ea Eb Ec X1]; subst.
  - exists (s_log s1), []. split; [symmetry; apply app_nil_r|]. split; [apply EMPTY|]. split; [apply EMPTY|]. intros _ kw sa Ea'. rewrite Ea in Ea'. discriminate Ea'.
  - destruct (HC _ _ _ _ Ea Eb) as (l & H1 & H2 & H3). exists (s_log sa), l. split; [exact H1|]. split; [exact H2|]. split; [exact H3|]. intros _ kw' sa' Ea'. rewrite Ea in Ea'. injection Ea' as _ <-. reflexivity.
  - destruct (HC _ _ _ _ Ea Eb) as (l & H1 & H2 & H3). exists (s_log sa), l. assert (EA' : (if t_auto t then on_w (on_drv commit) else ret tt) (stopped sb) = (Err e, s1)) by (rewrite A; exact Ec).
    destruct (auto_same t sb _ _ EA') as (G1 & _). rewrite G1. split; [exact H1|]. split; [exact H2|]. split; [exact H3|]. intros _ kw' sa' Ea'. rewrite Ea in Ea'. injection Ea' as _ <-. reflexivity.
  - destruct (HC _ _ _ _ Ea Eb) as (l & H1 & H2 & H3). exists (s_log sa), l. destruct (auto_same t sb _ _ Ec) as (G1 & _). rewrite G1.
    split; [exact H1|]. split; [exact H2|]. split; [exact H3|]. intros _ kw' sa' Ea'. rewrite Ea in Ea'. injection Ea' as _ <-. reflexivity.
Qed.
(** ** Loading is not metered *)
(** A contract whose top level is [p] *)
Definition load_mod (p : prog) : modul := mkMod p None [(u "f", mkFunc (Some (u "con_m")) (fun _ => PRet (VInt 7)))].
Definition load_lang (p : prog) : lang := demo [(u "con_m", load_mod p)].
Definition bob_calls : txn := call_of "bob" "con_m" "f".
Lemma loop_off L R ch n : forall s, tr_started (tracer_of s) = false -> go L R ch (code_loop n) s = (Ok VNone, set_log (s_log s ++ repeat (OLine (code_line 85)) n) s).
Proof.
  induction n as [|n IH]; intros s S0.
  - cbn. rewrite app_nil_r. destruct s; reflexivity.
  - cbn [code_loop go]. rewrite bind_eq. set (s1 := note (OLine (code_line 85)) s). assert (E1 : line (code_line 85) s = (Ok tt, s1)).
    { unfold line, on_w, on_rt, on_tracer, on_line. unfold tracer_of, s_rt in S0. cbn [s_w note set_log]. rewrite S0. unfold s1, note, set_w, set_log, set_tracer. destruct s as [[d [? ? ? ? ? ?]] ? ? ? ?]. reflexivity. }
    rewrite E1, (IH s1 S0). unfold s1. cbn. rewrite <- app_assoc. reflexivity.
Qed.
(** the machine when the contract is looked up, and when its top level is about to run *)
Definition at_look : mach := snd ((admission cfg0 bob_calls;; modify (upd_r (fun r => set_env (dupdate (rt_env r) (t_env bob_calls)) r));; base_context bob_calls) (began meter_start)).
Definition at_load : mach := let s := snd (on_w (on_drv (get_contract (u "con_m"))) at_look) in set_mods (dset (u "con_m") None (s_mods s)) s.
Definition at_top : mach := snd (fetch (load_lang (PRet VNone)) (u "con_m") at_load).
Definition loaded_from (p : prog) (s : mach) : mach :=
  note (OImport (s_restricted s) Lib (u "con_m")) (set_w (upd_rt (fun r => set_loaded (rt_loaded r ++ [u "con_m"]) r) (s_w s)) (set_mods (dset (u "con_m") (Some (load_mod p)) (s_mods s)) s)).
Lemma look_ok : (admission cfg0 bob_calls;; modify (upd_r (fun r => set_env (dupdate (rt_env r) (t_env bob_calls)) r));; base_context bob_calls) (began meter_start) = (Ok tt, at_look).
Proof. vm_compute. reflexivity. Qed.
Lemma code_there : exists c, on_w (on_drv (get_contract (u "con_m"))) at_look = (Ok c, snd (on_w (on_drv (get_contract (u "con_m"))) at_look)) /\ is_none c = false.
Proof. eexists (match fst (on_w (on_drv (get_contract (u "con_m"))) at_look) with Ok c => c | Err _ => VNone end). split; vm_compute; reflexivity. Qed.
Lemma fetch_top p : fetch (load_lang p) (u "con_m") at_load = (Ok (load_mod p), at_top).
Proof. vm_compute. reflexivity. Qed.
Lemma look_new : dmem (u "con_m") (s_mods at_look) = false. Proof. vm_compute. reflexivity. Qed.
Lemma import_top p v s1 : run (load_lang p) 9 [u "con_m"] p at_top = (Ok v, s1) -> plain_import (load_lang p) (deeper (load_lang p) 10) Lib [] (u "con_m") at_look = (Ok tt, loaded_from p s1).
Proof.
  intros HR. unfold plain_import. rewrite bind_eq. cbn [gets]. rewrite look_new. change (l_sysmod (load_lang p) (u "con_m")) with false. cbn iota.
  rewrite bind_eq. destruct code_there as (c & E & HN). rewrite E, HN. cbn [negb]. rewrite bind_eq. unfold load. fold at_load. rewrite bind_eq, fetch_top. rewrite bind_eq.
  change (m_init (load_mod p)) with p. change (deeper (load_lang p) 10) with (run (load_lang p) 9). rewrite HR. reflexivity.
Qed.
Lemma prepare_top p v s1 : run (load_lang p) 9 [u "con_m"] p at_top = (Ok v, s1) -> dget (u "con_m") (s_mods (loaded_from p s1)) = Some (Some (load_mod p)) ->
  prepare (load_lang p) 10 cfg0 bob_calls (began meter_start) = (Ok [], loaded_from p s1).
Proof.
  intros HR HD. assert (E : forall k : st mach (dict pyval), (admission cfg0 bob_calls;; modify (upd_r (fun r => set_env (dupdate (rt_env r) (t_env bob_calls)) r));; base_context bob_calls;; k) (began meter_start) = k at_look).
  { intros k. pose proof look_ok as H. rewrite !bind_eq in *. destruct (admission cfg0 bob_calls (began meter_start)) as [[[]|e] x]; [|discriminate H]. rewrite !bind_eq in *. cbn [modify] in *. rewrite bind_eq in *. rewrite H. reflexivity. }
  unfold prepare. rewrite E. rewrite bind_eq. unfold find_function. rewrite bind_eq. change (t_contract bob_calls) with (u "con_m"). rewrite (import_top p v s1 HR). rewrite bind_eq. cbn [gets].
  rewrite HD. change (t_function bob_calls) with (u "f"). change (m_funcs (load_mod p)) with [(u "f", mkFunc (Some (u "con_m")) (fun _ => PRet (VInt 7)))]. cbn [dget]. 
  change (str_eqb (u "f") (u "f")) with true. cbn [ret]. reflexivity.
Qed.
(** the rest of the transaction, whatever has been logged *)
Definition called_top (p : prog) (lg : list obs) := call_entry (load_lang p) 10 cfg0 bob_calls [] (loaded_from p (set_log lg at_top)).
Lemma top_there p lg : dget (u "con_m") (s_mods (loaded_from p (set_log lg at_top))) = Some (Some (load_mod p)).
Proof. vm_compute. reflexivity. Qed.
Lemma attempt_top p lg v : run (load_lang p) 9 [u "con_m"] p at_top = (Ok v, set_log lg at_top) -> attempt (load_lang p) 10 cfg0 bob_calls (began meter_start) = called_top p lg.
Proof. intros HR. rewrite attempt_eq, bind_eq. rewrite (prepare_top p v _ HR (top_there p lg)). cbv beta iota. unfold called_top. reflexivity. Qed.
Definition ends_well (p : prog) (lg : list obs) : bool := match called_top p lg with
  | (Ok (VInt 7, w, e), s) => match charge_fee (load_lang p) cfg0 bob_calls (stamps_used bob_calls (finally s)) w (finally s) with
                              | (Ok _, _) => stamps_used bob_calls (finally s) =? 5 | _ => false end
  | _ => false end.
Lemma ends_well_top p lg : ends_well p lg = true.
Proof. vm_compute. reflexivity. Qed.
Lemma rest_top p lg v : run (load_lang p) 9 [u "con_m"] p at_top = (Ok v, set_log lg at_top) ->
  exists out s', execute (load_lang p) 10 cfg0 bob_calls meter_start = (Ok out, s') /\ o_status out = 0 /\ o_result out = Ok (VInt 7) /\ o_stamps out = 5.
Proof.
  intros HR. pose proof (ends_well_top p lg) as HW. unfold ends_well in HW. unfold execute.
  change (upd_d (fun v => clear_events (clear_transaction_writes v)) (fresh_log meter_start)) with (began meter_start). change (refused cfg0 bob_calls) with false. cbn iota. unfold transact.
  rewrite (attempt_top p lg v HR). destruct (called_top p lg) as [[[[r w] e]|e] s]; [|discriminate HW]. destruct r; try discriminate HW. destruct z as [|q|q]; try discriminate HW.
  do 3 (destruct q as [q|q|]; try discriminate HW).
  destruct (charge_fee (load_lang p) cfg0 bob_calls (stamps_used bob_calls (finally s)) w (finally s)) as [[w'|e'] y] eqn:EF; [|discriminate HW]. apply Z.eqb_eq in HW.
  eexists _, _. split; [reflexivity|]. cbn [o_status o_result o_stamps]. auto.
Qed.
Lemma load_guardless n : lang_all (module_all no_guard) (load_lang (code_loop n)).
Proof.
  split.
  - intros b md. unfold load_lang, demo. cbn [l_interp dget]. destruct (str_eqb b (u "con_m")); [|discriminate]. intros E. injection E as <-. constructor.
    + unfold load_mod. cbn [m_init]. induction n as [|n IH]; cbn; auto.
    + discriminate.
    + intros m f a. unfold load_mod. cbn [m_funcs dget]. destruct (str_eqb m (u "f")); [|discriminate]. intros E. injection E as <-. cbn. auto.
  - intros m md. unfold load_lang, demo. cbn [l_host]. destruct (str_eqb m (u "os")); [|discriminate]. intros E. injection E as <-.
    constructor; [cbn; auto|discriminate|]. intros k f a. unfold os_module. cbn [m_funcs dget]. destruct (str_eqb k (u "system")); [|discriminate]. intros E. injection E as <-. cbn. auto.
Qed.
Lemma top_log : s_log at_top = [] /\ tr_started (tracer_of at_top) = false. Proof. split; vm_compute; reflexivity. Qed.
Lemma meter_idle : idle meter_start. Proof. constructor; reflexivity. Qed.
(** However long the top level of the contract is: the transaction runs it to the end, succeeds and pays 5 stamps. *)
Theorem C95_loading_refuted n : exists L out s' l, lang_all (module_all no_guard) L /\ idle meter_start /\ metered cfg0 bob_calls = true /\
  execute L 10 cfg0 bob_calls meter_start = (Ok out, s') /\ o_status out = 0 /\ o_stamps out = 5 /\ s_log s' = repeat (OLine (code_line 85)) n ++ l.
Proof.
  set (p := code_loop n). set (lg := repeat (OLine (code_line 85)) n).
  assert (HR : run (load_lang p) 9 [u "con_m"] p at_top = (Ok VNone, set_log lg at_top)).
  { destruct top_log as [T1 T2]. cbn [run]. unfold p. rewrite (loop_off _ _ _ n at_top T2), T1. reflexivity. }
  destruct (rest_top p lg VNone HR) as (out & s' & HE & H1 & _ & H3).
  assert (HM : mods_all (module_all no_guard) (s_mods meter_start)) by (intros x y; discriminate).
  destruct (C95_bounded_partial (load_lang p) 10 cfg0 bob_calls meter_start (Ok out) s' (load_guardless n) HM meter_idle eq_refl ltac:(discriminate) HE) as (lo & ru & HL & _ & _ & HP).
  pose proof (prepare_top p VNone _ HR (top_there p lg)) as HT. 
  assert (HX : exists l, s_log s' = lg ++ l).
  { rewrite <- (HP eq_refl _ _ HT) in HL. unfold loaded_from in HL. cbn [note set_log s_log set_w set_mods] in HL. rewrite <- app_assoc in HL. eauto. }
  destruct HX as (l & HX). exists (load_lang p), out, s', l. split; [apply load_guardless|]. split; [apply meter_idle|]. auto 10.
Qed.
(** Ten lines at 1000 with 6 stamps: the seventh raises *)
Definition short_lang : lang := demo [(u "con_m", only_f (u "con_m") (code_loop 10))].
Definition short_tx : txn := mkTx (u "bob") (u "con_m") (u "f") [] [] false 6 20 (Some true).
Lemma short_guardless : lang_all (module_all no_guard) short_lang.
Proof.
  split.
  - intros b md. unfold short_lang, demo. cbn [l_interp dget]. destruct (str_eqb b (u "con_m")); [|discriminate]. intros E. injection E as <-. constructor; [cbn; auto|discriminate|].
    intros m f a. unfold only_f. cbn [m_funcs dget]. destruct (str_eqb m (u "f")); [|discriminate]. intros E. injection E as <-. cbn. repeat split.
  - apply (load_guardless 0).
Qed.
Example C95_example : lang_all (module_all no_guard) short_lang /\ mods_all (module_all no_guard) (s_mods meter_start) /\ idle meter_start /\ metered cfg0 short_tx = true /\
  match execute short_lang 10 cfg0 short_tx meter_start with (Ok out, s') => o_status out = 1 /\ o_stamps out = 6 /\ contract_lines (s_log s') = 7 | _ => False end.
Proof. split; [apply short_guardless|]. split; [intros n md; discriminate|]. split; [apply meter_idle|]. split; [reflexivity|]. vm_compute. repeat split. Qed.
