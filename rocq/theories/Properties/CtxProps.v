(** * C36-C39: the call context *)
From Verif Require Import Model.Base Model.State Model.Dec Model.Time Model.Value Model.Encoder Model.Hdf5 Model.Runtime Model.Driver Model.Orm Model.Exec Model.Executor.
From Verif Require Import Spec.OrmSpec Spec.ExecSpec Proofs.BaseFacts Proofs.DriverFacts Proofs.OrmFacts Proofs.ExecFacts Proofs.ExecRel Proofs.MeterFacts Proofs.TxFacts Proofs.CtxFacts.
From Verif Require Import Properties.Demo.
From Coq Require Import Lia.
Local Open Scope nat_scope.

(** ** What the transaction machinery does to the context *)
(** the stack is the same, no exported function has run *)
Definition steady (s s' : mach) : Prop := stack_of s' = stack_of s /\ exists l, s_log s' = s_log s ++ l /\ Forall no_body l.
Lemma quiet_steady s s' : quiet s s' -> steady s s'.
Proof. intros [A B]. split; [unfold stack_of; congruence|exact B]. Qed.
Lemma steady_trans a b c : steady a b -> steady b c -> steady a c.
Proof.
  intros [H1 (l & H2 & H3)] [G1 (l' & G2 & G3)]. split; [congruence|]. exists (l ++ l'). rewrite G2, H2, app_assoc. split; [reflexivity|]. apply Forall_app. auto.
Qed.
(** the base state of a transaction *)
Definition base_of (t : txn) (B : cstate) : Prop :=
  c_this B = Some (t_contract t) /\ c_caller B = Some (t_sender t) /\ c_signer B = Some (t_sender t) /\ c_entry B = Some (t_contract t, t_function t).
Section Prepare.
  Variables (L : lang) (fuel : nat) (g : cfg) (t : txn) (QM : modul -> Prop).
  Hypothesis QM_interp : forall b md, l_interp L b = Ok md -> QM md.
  Hypothesis QM_init : forall md, QM md -> each calls_nothing (m_init md).
  Lemma q_bind A B (m : st mach A) (k : A -> st mach B) s : quiet s (snd (m s)) -> (forall a s1, quiet s1 (snd (k a s1))) -> quiet s (snd (bind m k s)).
  Proof. intros Hm Hk. unfold bind. destruct (m s) as [[a|e] s1]; cbn [snd] in *; [|exact Hm]. eapply quiet_trans; [exact Hm|apply Hk]. Qed.
  Lemma q_lift A (r : result A) s : quiet s (snd (lift r s)). Proof. apply quiet_refl. Qed.
  Lemma admission_quiet s : quiet s (snd (admission g t s)) /\ s_mods (snd (admission g t s)) = s_mods s.
  Proof.
    unfold admission. destruct (metered g t); [|split; [apply quiet_refl|reflexivity]]. rewrite bind_eq. destruct (g_bypass_balance g).
    - cbn [ret]. rewrite bind_eq. cbn [lift]. destruct (enough (VInt 9999999) (t_rate t) (t_stamps t)) as [[]|]; (split; [apply quiet_refl|reflexivity]).
    - rewrite bind_eq. pose proof (read_quiet (get (balance_key g t)) s) as H. pose proof (on_w_mods (on_drv (get (balance_key g t))) s) as HM.
      destruct (on_w (on_drv (get (balance_key g t))) s) as [[b|e] s1]; cbn [snd] in *; [|split; assumption]. cbn [lift]. destruct (balance_value b) as [v|e]; [|split; assumption].
      rewrite bind_eq. cbn [lift]. destruct (enough v (t_rate t) (t_stamps t)) as [[]|]; split; assumption.
  Qed.
  (** preparing keeps the stack; if it succeeds the base state is that of the transaction *)
  Lemma prepare_ctx s : mods_all QM (s_mods s) ->
    steady s (snd (prepare L fuel g t s)) /\ mods_all QM (s_mods (snd (prepare L fuel g t s))) /\
    (forall kw, fst (prepare L fuel g t s) = Ok kw -> base_of t (cx_base (s_ctx (snd (prepare L fuel g t s)))) /\
       (stack_of s = [] -> exists o, fst (get_owner (t_contract t) (s_drv s)) = Ok o /\ admitted o (t_sender t))).
  Proof using QM_interp QM_init.
    intros Hs. remember (prepare L fuel g t s) as R eqn:ER. unfold prepare in ER. rewrite bind_eq in ER.
    destruct (admission_quiet s) as [Q1 M1]. assert (D1 : dv_disk (s_drv (snd (admission g t s))) = dv_disk (s_drv s) /\ fst (get_owner (t_contract t) (s_drv (snd (admission g t s)))) = fst (get_owner (t_contract t) (s_drv s))).
    { unfold admission. destruct (metered g t); [|split; reflexivity]. rewrite bind_eq. destruct (g_bypass_balance g); cbn [ret].
      - rewrite bind_eq. cbn [lift]. destruct (enough _ _ _); split; reflexivity.
      - rewrite bind_eq. unfold on_w, on_drv. destruct (ro_get (balance_key g t) (w_drv (s_w s))) as (x & HX). destruct (get (balance_key g t) (w_drv (s_w s))) as [[b|e] v1]; cbn [fst snd] in *; subst v1.
        + cbn [lift]. destruct (balance_value b) as [bal|e]; [rewrite bind_eq; cbn [lift]; destruct (enough bal (t_rate t) (t_stamps t))|]; (split; [reflexivity|exact (owner_reads (t_contract t) x (w_drv (s_w s)))]).
        + split; [reflexivity|exact (owner_reads (t_contract t) x (w_drv (s_w s)))]. }
    destruct (admission g t s) as [[[]|e] s1]; cbn [fst snd] in *.
    2:{ subst R. cbn [fst snd]. split; [apply quiet_steady, Q1|]. split; [rewrite M1; exact Hs|discriminate]. }
    rewrite bind_eq in ER. cbn [modify] in ER. set (s2 := upd_r _ s1) in ER. assert (Q2 : steady s s2) by (apply quiet_steady; exact Q1).
    assert (M2 : mods_all QM (s_mods s2)) by (unfold s2; cbn; rewrite M1; exact Hs). assert (D2 : fst (get_owner (t_contract t) (s_drv s2)) = fst (get_owner (t_contract t) (s_drv s))) by apply D1. clearbody s2. clear Q1 M1 D1.
    (* base context *)
    rewrite bind_eq in ER.
    assert (HB : steady s2 (snd (base_context t s2)) /\ s_mods (snd (base_context t s2)) = s_mods s2 /\
      (fst (base_context t s2) = Ok tt -> base_of t (cx_base (s_ctx (snd (base_context t s2)))) /\ (stack_of s2 = [] -> exists o, fst (get_owner (t_contract t) (s_drv s2)) = Ok o /\ admitted o (t_sender t)))).
    { unfold base_context. rewrite bind_eq. unfold on_w, on_drv. fold (s_drv s2). destruct (get_owner (t_contract t) (s_drv s2)) as [[o|e] v1]; cbn [fst snd].
      2:{ split; [apply quiet_steady, quiet_same; reflexivity|]. split; [reflexivity|discriminate]. }
      rewrite bind_eq. cbn [modify]. rewrite bind_eq. cbn [gets].
      set (s3 := upd_ctx _ _). assert (S3 : steady s2 s3) by (split; [reflexivity|exists []; rewrite app_nil_r; split; [reflexivity|constructor]]).
      destruct (is_none (c_owner (get_state (s_ctx s3))) || is_owner (c_owner (get_state (s_ctx s3))) (c_caller (get_state (s_ctx s3))))%bool eqn:EI; cbn [ret raise fst snd].
      2:{ split; [exact S3|]. split; [reflexivity|discriminate]. }
      split; [exact S3|]. split; [reflexivity|]. intros _. split; [repeat split|]. intros HE. exists o. split; [reflexivity|].
      assert (GS : get_state (s_ctx s3) = cx_base (s_ctx s3)).
      { unfold get_state. change (cx_stack (s_ctx s3)) with (stack_of s2). rewrite HE. reflexivity. }
      rewrite GS in EI. unfold s3 in EI. cbn in EI. apply Bool.orb_true_iff in EI as [EI|EI]; [left; destruct o; try discriminate; reflexivity|].
      right. destruct o; cbn in EI; try discriminate. destruct (str_eqb_spec s0 (t_sender t)); [subst; reflexivity|discriminate]. }
    destruct HB as (B1 & B2 & B3). destruct (base_context t s2) as [[[]|e] s3]; cbn [fst snd] in *.
    2:{ subst R. cbn [fst snd]. split; [exact (steady_trans _ _ _ Q2 B1)|]. split; [rewrite B2; exact M2|discriminate]. }
    destruct (B3 eq_refl) as [B4 B5]. clear B3. assert (Q3 : steady s s3) by exact (steady_trans _ _ _ Q2 B1). assert (M3 : mods_all QM (s_mods s3)) by (rewrite B2; exact M2).
    assert (O3 : stack_of s = [] -> exists o, fst (get_owner (t_contract t) (s_drv s)) = Ok o /\ admitted o (t_sender t)) by (intros HE; rewrite <- D2; apply B5; rewrite (proj1 Q2); exact HE).
    clear B1 B2 B5 Q2 M2 D2 s1 s2.
    (* import *)
    rewrite bind_eq in ER. assert (HF : quiet s3 (snd (find_function L fuel t s3)) /\ mods_all QM (s_mods (snd (find_function L fuel t s3)))).
    { unfold find_function. rewrite bind_eq. destruct (import_quiet L QM QM_interp QM_init fuel Lib [] (t_contract t) s3 M3) as [H1 H2].
      destruct (plain_import L (deeper L fuel) Lib [] (t_contract t) s3) as [[x|e] s4]; cbn [fst snd] in *; [|split; assumption].
      rewrite bind_eq. cbn [gets]. destruct (match dget (t_contract t) (s_mods s4) with Some md => md | None => l_host L (t_contract t) end) as [md|]; [|split; assumption].
      destruct (dget (t_function t) (m_funcs md)); split; assumption. }
    destruct HF as [F1 F2]. destruct (find_function L fuel t s3) as [[[]|e] s4]; cbn [fst snd] in *.
    2:{ subst R. cbn [fst snd]. split; [exact (steady_trans _ _ _ Q3 (quiet_steady _ _ F1))|]. split; [exact F2|discriminate]. }
    assert (Q4 : steady s s4) by exact (steady_trans _ _ _ Q3 (quiet_steady _ _ F1)). rewrite <- (proj1 F1) in B4. clear F1 Q3 M3 s3.
    rewrite bind_eq in ER. assert (HN : exists s5, submission_name t s4 = (Ok tt, s5) /\ steady s4 s5 /\ s_mods s5 = s_mods s4 /\ base_of t (cx_base (s_ctx s5))).
    { unfold submission_name. destruct (str_eqb (t_contract t) SUBMISSION).
      - eexists. split; [reflexivity|]. split; [split; [reflexivity|exists []; rewrite app_nil_r; split; [reflexivity|constructor]]|]. split; [reflexivity|exact B4].
      - exists s4. split; [reflexivity|]. split; [apply quiet_steady, quiet_refl|]. split; [reflexivity|exact B4]. }
    destruct HN as (s5 & E5 & S5 & M5 & B5). rewrite E5 in ER. unfold lift in ER. subst R. cbn [fst snd].
    split; [exact (steady_trans _ _ _ Q4 S5)|]. split; [rewrite M5; exact F2|]. intros kw _. split; assumption.
  Qed.
End Prepare.
Lemma fee_quiet L g t used w s : quiet s (snd (charge_fee L g t used w s)).
Proof.
  unfold charge_fee. destruct (metered g t); [|apply quiet_refl]. apply q_bind; [apply q_lift|]. intros fee s1. apply q_bind; [apply read_quiet|]. intros bal s2. apply q_bind; [apply q_lift|]. intros x s3.
  apply q_bind; [|intros _ s4; apply q_bind; [destruct (t_auto t); [apply read_quiet|apply quiet_refl]|intros; apply quiet_refl]].
  unfold on_w. pose proof (set_ctx_same (balance_key g t) (max0 x) false (s_w s3)) as H. destruct (set _ _ _ _) as [y w1]. apply quiet_same; [exact H|reflexivity].
Qed.
Lemma transact_quiet L fuel g t saved s : quiet (snd (attempt L fuel g t s)) (snd (transact L fuel g t saved s)).
Proof.
  unfold transact. destruct (attempt L fuel g t s) as [r s1]. cbn [snd].
  assert (H : forall used w x, quiet x (snd (match charge_fee L g t used w (finally x) with (Err e, y) => (Err e, y) | (Ok writes, y) => (@Ok output (mkOut 0 (Ok VNone) used writes [] []), wind_up y) end))).
  { intros used w x. pose proof (fee_quiet L g t used w (finally x)) as H. destruct (charge_fee L g t used w (finally x)) as [[w'|e] y]; cbn [snd] in *.
    - eapply quiet_trans; [apply (quiet_same x (finally x)); reflexivity|]. eapply quiet_trans; [exact H|]. apply quiet_same; reflexivity.
    - eapply quiet_trans; [apply (quiet_same x (finally x)); reflexivity|]. exact H. }
  assert (HX : forall used w x out, quiet x (snd (match charge_fee L g t used w (finally x) with (Err e, y) => (Err e, y) | (Ok writes, y) => (@Ok output (out writes y), wind_up y) end))).
  { intros used w x out. specialize (H used w x). destruct (charge_fee L g t used w (finally x)) as [[w'|e] y]; exact H. }
  destruct r as [[[v w] ev]|e].
  - apply HX.
  - assert (HR : quiet s1 (revert t saved s1)) by (apply quiet_same; reflexivity).
    destruct e; try (eapply quiet_trans; [exact HR|apply HX]). apply quiet_same; reflexivity.
Qed.

Lemma execute_parts L fuel g t s r s' : execute L fuel g t s = (r, s') ->
  (refused g t = true /\ s' = began s) \/ (refused g t = false /\ exists r1 s1, phases L fuel g t (began s) r1 s1 /\ quiet s1 s').
Proof.
  unfold execute. fold (began s). intros E. destruct (refused g t); [injection E as _ <-; left; split; reflexivity|]. right. split; [reflexivity|].
  pose proof (transact_quiet L fuel g t (dv_writes (s_drv (fresh_log s))) (began s)) as H. change (upd_d (fun v => clear_events (clear_transaction_writes v)) (fresh_log s)) with (began s) in E.
  rewrite E in H. cbn [snd] in H. destruct (attempt L fuel g t (began s)) as [r1 s1] eqn:EA. apply attempt_phases in EA. exists r1, s1. split; assumption.
Qed.
Lemma quiet_bodies sender entry fn s s' : quiet s s' -> Forall (body_right sender entry fn) (s_log s) -> Forall (body_right sender entry fn) (s_log s').
Proof.
  intros [_ (l & -> & H)] HS. apply Forall_app. split; [exact HS|]. eapply Forall_impl; [|exact H]. intros [| | | |] Ho; try exact I. contradiction.
Qed.
Lemma steady_bodies sender entry fn s s' : steady s s' -> s_log s = [] -> Forall (body_right sender entry fn) (s_log s').
Proof.
  intros [_ (l & -> & H)] ->. cbn. eapply Forall_impl; [|exact H]. intros [| | | |] Ho; try exact I. contradiction.
Qed.
Lemma auto_quiet t s r s' : (if t_auto t then on_w (on_drv commit) else ret tt) (stopped s) = (r, s') -> quiet s s'.
Proof. intros H. destruct (auto_same t s r s' H) as (A & B & _). apply quiet_same; [unfold s_ctx; rewrite B; reflexivity|exact A]. Qed.
Lemma primed_stack g t s : stack_of (primed g t s) = [].
Proof. reflexivity. Qed.
Lemma primed_base g t s : cx_base (s_ctx (primed g t s)) = cx_base (s_ctx s).
Proof. unfold primed, set_up. destruct (metered g t); reflexivity. Qed.
Lemma primed_mods g t s : s_mods (primed g t s) = s_mods s. Proof. reflexivity. Qed.
Lemma primed_log g t s : s_log (primed g t s) = s_log s. Proof. reflexivity. Qed.

(** ** C36: the context in every exported function *)
(** [OBody chain c cs v]: the body of a function exported by contract c starts, the active calls being those of the
    contracts in [chain] (innermost first); [cs] is what ctx shows. *)
Theorem C36_context_partial L fuel g t s r s' :
  regular L -> mods_all decorated (s_mods s) -> S fuel <= RECURSION_LIMIT -> g_bypass_privates g = false ->
  execute L fuel g t s = (r, s') -> Forall (body_right (t_sender t) (t_contract t) (t_function t)) (s_log s').
Proof.
  intros HL HM HF HG HE. apply execute_parts in HE as [(_ & ->)|(HR & r1 & s1 & HP & HQ)]; [constructor|].
  unfold refused in HR. rewrite HG in HR. cbn in HR.
  eapply quiet_bodies; [exact HQ|]. clear HQ.
  destruct (prepare_ctx L fuel g t decorated (rg_interp _ HL) (fun md H => de_init _ H) (began s) HM) as (P1 & P2 & P3).
  assert (HC : forall kw s2 x s3, prepare L fuel g t (began s) = (Ok kw, s2) -> entry_call L fuel t kw (primed g t s2) = (x, s3) -> Forall (body_right (t_sender t) (t_contract t) (t_function t)) (s_log s3)).
  { intros kw s2 x s3 EP EC. rewrite EP in P1, P2, P3. cbn [fst snd] in *. destruct (P3 kw eq_refl) as [(B1 & B2 & B3 & B4) _].
    pose proof (call_ctx L (t_sender t) (t_contract t) (t_function t) (cx_base (s_ctx s2)) HL B1 B2 B3 B4 fuel [] (t_contract t) (t_function t) kw HR (primed g t s2)) as H.
    unfold entry_call in EC. rewrite EC in H. cbn [fst snd] in H.
    destruct H as [(_ & _ & _ & l & H1 & H2) _].
    - exact P2.
    - constructor; try exact I; [apply primed_base|..]; unfold get_state; fold (stack_of (primed g t s2)); rewrite primed_stack, primed_base; assumption.
    - rewrite primed_stack. exact HF.
    - rewrite H1, primed_log. apply Forall_app. split; [|exact H2]. exact (steady_bodies _ _ _ _ _ P1 eq_refl). }
  destruct HP as [e s1 EP|kw s2 e s1 EP EC|kw s2 v s3 e s1 EP EC HA EM|kw s2 v s3 s1 EP EC EM].
  - rewrite EP in P1. exact (steady_bodies _ _ _ _ _ P1 eq_refl).
  - exact (HC _ _ _ _ EP EC).
  - eapply quiet_bodies; [|exact (HC _ _ _ _ EP EC)]. eapply auto_quiet. rewrite HA. exact EM.
  - eapply quiet_bodies; [|exact (HC _ _ _ _ EP EC)]. eapply auto_quiet. exact EM.
Qed.

(** ** C38: owned contracts *)
(** The body of a function of contract [c] runs only if the contract it is entered from (the sender, for the entry
    contract) is admitted by the owner entry of [c]. *)
Theorem C38_owner_partial L fuel g t s r s' chain c cs v :
  regular L -> mods_all decorated (s_mods s) -> S fuel <= RECURSION_LIMIT -> g_bypass_privates g = false ->
  execute L fuel g t s = (r, s') -> In (OBody chain c cs v) (s_log s') ->
  (hd (t_contract t) chain <> c -> exists owner, fst (get_owner c v) = Ok owner /\ admitted owner (hd (t_contract t) chain)) /\
  (stack_of s = [] -> exists owner, fst (get_owner (t_contract t) (s_drv s)) = Ok owner /\ admitted owner (t_sender t)).
Proof.
  intros HL HM HF HG HE HI. split.
  - pose proof (C36_context_partial _ _ _ _ _ _ _ HL HM HF HG HE) as H. rewrite Forall_forall in H. specialize (H _ HI). cbn in H. apply H.
  - intros HS. apply execute_parts in HE as [(_ & ->)|(HR & r1 & s1 & HP & HQ)]; [destruct HI|].
    destruct (prepare_ctx L fuel g t decorated (rg_interp _ HL) (fun md H => de_init _ H) (began s) HM) as (P1 & P2 & P3).
    assert (D : fst (get_owner (t_contract t) (s_drv (began s))) = fst (get_owner (t_contract t) (s_drv s))).
    { unfold get_owner, get_var. rewrite !bind_eq. pose proof (get_result (make_key (t_contract t) OWNER_KEY []) (s_drv s)) as H1. pose proof (get_result (make_key (t_contract t) OWNER_KEY []) (s_drv (began s))) as H2.
      change (find (make_key (t_contract t) OWNER_KEY []) (s_drv (began s))) with (find (make_key (t_contract t) OWNER_KEY []) (s_drv s)) in H2. rewrite <- H1 in H2.
      destruct (get (make_key (t_contract t) OWNER_KEY []) (s_drv s)) as [[a|e] v1]; destruct (get (make_key (t_contract t) OWNER_KEY []) (s_drv (began s))) as [[b|e'] v2]; cbn [fst] in H2; try discriminate H2; injection H2 as ->; reflexivity. }
    rewrite D in P3.
    assert (HK : forall kw s2, prepare L fuel g t (began s) = (Ok kw, s2) -> exists owner, fst (get_owner (t_contract t) (s_drv s)) = Ok owner /\ admitted owner (t_sender t)).
    { intros kw s2 EP. rewrite EP in P3. apply (proj2 (P3 kw eq_refl)). exact HS. }
    destruct HP as [e s1 EP|kw s2 e s1 EP EC|kw s2 v0 s3 e s1 EP EC HA EM|kw s2 v0 s3 s1 EP EC EM]; [|exact (HK _ _ EP)..].
    exfalso. rewrite EP in P1. destruct P1 as [_ (l & P4 & P5)]. destruct HQ as [_ (l' & Q1 & Q2)]. cbn [fst snd] in P4. rewrite Q1, P4 in HI. cbn [app began] in HI.
    apply in_app_or in HI as [HI|HI]; [|rewrite Forall_forall in Q2; exact (Q2 _ HI)]. cbn in HI. rewrite Forall_forall in P5. exact (P5 _ HI).
Qed.

(** Who is let in, exactly: anyone if no owner or an empty one is stored, otherwise only the owner. *)
Definition lets_in (stored : pyval) (who : option pystr) : Prop :=
  stored = VNone \/ stored = VStr [] \/ exists n, stored = VStr n /\ who = Some n.
Lemma get_owner_read c v o : fst (get (c ++ u ".__owner__") v) = Ok o ->
  get_owner c v = (Ok (match o with VStr [] => VNone | _ => o end), snd (get (c ++ u ".__owner__") v)).
Proof.
  intros H. unfold get_owner, get_var. rewrite bind_eq. change (make_key c OWNER_KEY []) with (c ++ u ".__owner__").
  destruct (get (c ++ u ".__owner__") v) as [x v']. cbn [fst snd] in *. subst x. reflexivity.
Qed.
Lemma owner_test o who : let owner := match o with VStr [] => VNone | _ => o end in (is_none owner || is_owner owner who = true)%bool <-> lets_in o who.
Proof.
  cbv zeta. unfold lets_in. split.
  - destruct o as [| | | |s| | | | | | | | |]; cbn [is_none is_owner orb]; try discriminate; auto. destruct s as [|a s]; [auto|]. cbn [is_none orb is_owner].
    destruct who as [b|]; [|discriminate]. intros H. apply str_eqb_eq in H. subst b. right. right. eauto.
  - intros [->|[->|(n & -> & ->)]]; try reflexivity. destruct n; [reflexivity|]. cbn [is_none orb is_owner]. apply str_eqb_eq. reflexivity.
Qed.
Theorem C38_let_in c s o : c_this (get_state (s_ctx s)) <> Some c -> fst (get (c ++ u ".__owner__") (s_drv s)) = Ok o ->
  let caller := c_this (get_state (s_ctx s)) in
  (lets_in o caller -> exists s', enter c s = (Ok tt, s')) /\ (~ lets_in o caller -> exists s', enter c s = (Err EException, s')).
Proof.
  intros HC HR. cbv zeta. pose proof (owner_test o (c_this (get_state (s_ctx s)))) as HT. cbv zeta in HT.
  assert (CH : context_changed (s_ctx s) c = true).
  { unfold context_changed. destruct (ostr_eqb (c_this (get_state (s_ctx s))) (Some c)) eqn:E; [|reflexivity]. exfalso. apply HC.
    destruct (c_this (get_state (s_ctx s))) as [n|]; cbn in E; [|discriminate]. apply str_eqb_eq in E. subst; reflexivity. }
  unfold enter. rewrite bind_eq. unfold gets. rewrite CH, bind_eq. unfold on_w, on_drv. unfold s_drv in HR. rewrite (get_owner_read _ _ _ HR). cbn [fst snd].
  rewrite bind_eq. cbn [s_ctx s_rt set_w s_w w_rt]. rewrite bind_eq. unfold modify. unfold s_ctx, s_rt in *. cbn [s_w set_w w_rt] in *.
  set (owner := match o with VStr [] => VNone | _ => o end) in *. set (who := c_this (get_state (rt_ctx (w_rt (s_w s))))) in *.
  split; intros H.
  - apply HT in H. rewrite H. eexists. reflexivity.
  - destruct (is_none owner || is_owner owner who)%bool eqn:E; [exfalso; apply H, HT; reflexivity|]. eexists. reflexivity.
Qed.
(** ... and at the start of a transaction *)
Theorem C38_sender_let_in t s o : stack_of s = [] -> fst (get (t_contract t ++ u ".__owner__") (s_drv s)) = Ok o ->
  (lets_in o (Some (t_sender t)) -> exists s', base_context t s = (Ok tt, s')) /\ (~ lets_in o (Some (t_sender t)) -> exists s', base_context t s = (Err EException, s')).
Proof.
  intros HS HR. pose proof (owner_test o (Some (t_sender t))) as HT. cbv zeta in HT.
  unfold base_context. rewrite bind_eq. unfold on_w, on_drv. unfold s_drv in HR. rewrite (get_owner_read _ _ _ HR). cbn [fst snd].
  rewrite bind_eq. unfold modify. rewrite bind_eq. unfold gets.
  match goal with |- context [get_state (s_ctx ?x)] => assert (E : get_state (s_ctx x) = mkCs (Some (t_contract t)) (Some (t_sender t)) (Some (t_sender t)) (match o with VStr [] => VNone | _ => o end) (Some (t_contract t, t_function t)) VNone) end.
  { unfold stack_of in HS. unfold s_ctx, s_rt in *. cbn [upd_ctx s_w set_w w_rt upd_rt set_ctx rt_ctx cx_stack cx_base] in *. unfold upd_ctx, get_state. cbn. rewrite HS. reflexivity. }
  rewrite E. cbn [c_owner c_caller]. set (owner := match o with VStr [] => VNone | _ => o end) in *.
  split; intros H.
  - apply HT in H. rewrite H. eexists. reflexivity.
  - destruct (is_none owner || is_owner owner (Some (t_sender t)))%bool eqn:E2; [exfalso; apply H, HT; reflexivity|]. eexists. reflexivity.
Qed.

Example C38_let_in_example : let s := idle_mach [(u "con_a.__owner__", VStr []); (u "con_b.__owner__", VStr (u "bob"))] in
  c_this (get_state (s_ctx s)) = None /\ stack_of s = [] /\ fst (get (u "con_a.__owner__") (s_drv s)) = Ok (VStr []) /\ fst (get (u "con_b.__owner__") (s_drv s)) = Ok (VStr (u "bob")) /\
  fst (enter (u "con_a") s) = Ok tt /\ fst (enter (u "con_b") s) = Err EException /\ ~ lets_in (VStr (u "bob")) None.
Proof.
  cbv zeta. repeat (split; [vm_compute; reflexivity|]). intros [H|[H|(n & _ & H)]]; [discriminate H| |discriminate H]. apply (f_equal (fun v => match v with VStr s => List.length s | _ => 0%nat end)) in H. vm_compute in H. discriminate H.
Qed.

(** ** C37: the context is restored *)
(** Every call (exported or not) that returns, or raises anything but the Exception of an owner check, leaves the
    context exactly as it was; an Exception can leave one level too many.  For all code. *)
Theorem C37_call_restores L fuel chain c f args s : top_ok (s_ctx s) -> List.length (stack_of s) + S fuel <= RECURSION_LIMIT ->
  let (r, s') := call L (deeper L fuel) chain c f args s in
  (r <> Err EException -> s_ctx s' = s_ctx s) /\ leaked (stack_of s) (stack_of s').
Proof.
  intros HT HD. destruct (call_back L fuel chain c f args s HT HD) as (_ & H2 & H3). destruct (call L (deeper L fuel) chain c f args s) as [r s']. split; assumption.
Qed.
(** The exception: a refused owner check always leaves its frame *)
Theorem C37_refused_owner_leaks_refuted chain c body s o : context_changed (s_ctx s) c = true -> List.length (stack_of s) < RECURSION_LIMIT ->
  fst (get_owner c (s_drv s)) = Ok o -> is_none o = false -> is_owner o (c_this (get_state (s_ctx s))) = false ->
  exists cs s', with_export chain c body s = (Err EException, s') /\ stack_of s' = (cs, 1) :: stack_of s /\ c_owner cs = o /\ c_caller cs = c_this (get_state (s_ctx s)).
Proof.
  intros CC HD HO HN HI. unfold with_export, enter. rewrite bind_eq. cbn [gets]. rewrite CC. rewrite bind_eq. unfold on_w, on_drv. fold (s_drv s).
  destruct (get_owner c (s_drv s)) as [[o'|e] v1]; cbn [fst] in HO; [injection HO as ->|discriminate HO].
  rewrite bind_eq. cbn [gets]. rewrite bind_eq. cbn [modify]. set (s1 := set_w (mkW v1 (w_rt (s_w s))) s). change (s_ctx s1) with (s_ctx s). set (cs := mkCs _ _ _ _ _ _).
  rewrite HN, HI. cbn [orb raise]. exists cs, (upd_ctx (add_state RECURSION_LIMIT cs) s1). split; [reflexivity|]. split; [|split; reflexivity].
  unfold stack_of. change (s_ctx (upd_ctx (add_state RECURSION_LIMIT cs) s1)) with (add_state RECURSION_LIMIT cs (s_ctx s)). unfold add_state. cbn [c_this cs]. rewrite CC. cbn [andb]. fold (stack_of s).
  destruct (Nat.ltb_spec (List.length (stack_of s)) RECURSION_LIMIT); [reflexivity|lia].
Qed.
(** Contracts whose top-level code calls nothing; the entry function is decorated with its own contract's name *)
Definition entry_decorated (L : lang) (t : txn) (s : mach) : Prop :=
  forall md f, fst (fetch L (t_contract t) s) = Ok md -> dget (t_function t) (m_funcs md) = Some f -> f_export f = Some (t_contract t).
Lemma leaked_nil l : leaked [] l -> popped l = [].
Proof. intros [->|H]; [reflexivity|exact H]. Qed.

Lemma fetch_find L n s s' : find (make_key n COMPILED_KEY []) (s_drv s) = find (make_key n COMPILED_KEY []) (s_drv s') -> fst (fetch L n s) = fst (fetch L n s').
Proof.
  intros H. unfold fetch. rewrite !bind_eq. unfold on_w, on_drv. fold (s_drv s) (s_drv s'). unfold get_compiled, get_var.
  pose proof (get_result (make_key n COMPILED_KEY []) (s_drv s)) as H1. pose proof (get_result (make_key n COMPILED_KEY []) (s_drv s')) as H2. rewrite H, <- H2 in H1.
  destruct (get (make_key n COMPILED_KEY []) (s_drv s)) as [[a|e] v1]; destruct (get (make_key n COMPILED_KEY []) (s_drv s')) as [[b|e'] v2]; cbn [fst] in H1; try discriminate H1; injection H1 as ->; [|reflexivity].
  rewrite !bind_eq. unfold lift. destruct (match b with VNone => Err EImport | VBytes x => Ok x | VStr x => fromhex x | _ => Err EType end); reflexivity.
Qed.
Definition calm (s s' : mach) : Prop := s_mods s' = s_mods s /\ forall k, find k (s_drv s') = find k (s_drv s).
Lemma calm_trans a b c : calm a b -> calm b c -> calm a c.
Proof. intros [A1 A2] [B1 B2]. split; [congruence|]. intros k. rewrite B2. apply A2. Qed.
Lemma calm_get k s : calm s (snd (on_w (on_drv (get k)) s)).
Proof. split; [apply on_w_mods|]. intros k'. unfold on_w, on_drv. destruct (ro_get k (w_drv (s_w s))) as (x & HX). destruct (get k (w_drv (s_w s))) as [a v1]. cbn [snd] in HX. subst v1. reflexivity. Qed.
Lemma admission_calm g t s : calm s (snd (admission g t s)).
Proof.
  assert (R : calm s s) by (split; reflexivity).
  unfold admission. destruct (metered g t); [|exact R]. rewrite bind_eq. destruct (g_bypass_balance g).
  - cbn [ret]. rewrite bind_eq. unfold lift, check. destruct (enough (VInt 9999999) (t_rate t) (t_stamps t)) as [[]|]; exact R.
  - rewrite bind_eq. pose proof (calm_get (balance_key g t) s) as H. destruct (on_w (on_drv (get (balance_key g t))) s) as [[b|e] s1]; cbn [snd] in *; [|exact H].
    unfold lift. destruct (balance_value b) as [v|e]; [|exact H]. rewrite bind_eq. destruct (enough v (t_rate t) (t_stamps t)) as [[]|]; exact H.
Qed.
Lemma base_calm t s : calm s (snd (base_context t s)).
Proof.
  unfold base_context. rewrite bind_eq. unfold on_w, on_drv. destruct (ro_owner (t_contract t) (w_drv (s_w s))) as (x & HX). destruct (get_owner (t_contract t) (w_drv (s_w s))) as [[o|e] v1]; cbn [snd] in HX; subst v1; [|split; reflexivity].
  rewrite bind_eq. cbn [modify]. rewrite bind_eq. cbn [gets]. destruct (_ || _)%bool; split; reflexivity.
Qed.
(** the module found is the stored one *)
Lemma prepare_found L fuel g t s kw s1 : s_mods s = [] -> prepare L fuel g t s = (Ok kw, s1) ->
  match dget (t_contract t) (s_mods s1) with Some (Some md) => fst (fetch L (t_contract t) s) = Ok md | Some None => False | None => True end.
Proof.
  intros HM HE. unfold prepare in HE. rewrite bind_eq in HE. pose proof (admission_calm g t s) as H1. destruct (admission g t s) as [[[]|e] s2]; cbn [snd] in *; [|discriminate HE].
  rewrite bind_eq in HE. cbn [modify] in HE. set (s3 := upd_r _ s2) in HE. assert (H3 : calm s s3) by exact H1. clearbody s3. clear H1 s2.
  rewrite bind_eq in HE. pose proof (base_calm t s3) as H4. destruct (base_context t s3) as [[[]|e] s4]; cbn [snd] in *; [|discriminate HE].
  assert (H5 : calm s s4) by exact (calm_trans _ _ _ H3 H4). clear H3 H4 s3. destruct H5 as [M4 F4]. rewrite HM in M4.
  rewrite bind_eq in HE. destruct (find_function L fuel t s4) as [[[]|e] s5] eqn:EF; [|discriminate HE].
  assert (M5 : s_mods s1 = s_mods s5).
  { rewrite bind_eq in HE. unfold submission_name in HE. destruct (str_eqb (t_contract t) SUBMISSION); cbn [modify ret] in HE; unfold lift in HE; injection HE as _ <-; reflexivity. }
  rewrite M5. clear HE M5 s1. unfold find_function in EF. rewrite bind_eq in EF.
  assert (HP : match plain_import L (deeper L fuel) Lib [] (t_contract t) s4 with (Ok _, s5) => match dget (t_contract t) (s_mods s5) with Some (Some md) => fst (fetch L (t_contract t) s) = Ok md | Some None => False | None => True end | _ => True end).
  { unfold plain_import. rewrite bind_eq. cbn [gets]. assert (ED : dmem (t_contract t) (s_mods s4) = false) by (rewrite M4; reflexivity). rewrite ED.
    destruct (l_sysmod L (t_contract t)); [cbn; rewrite M4; exact I|]. rewrite bind_eq. pose proof (calm_get (make_key (t_contract t) CODE_KEY []) s4) as [G1 G2]. unfold get_contract, get_var.
    destruct (on_w (on_drv (get (make_key (t_contract t) CODE_KEY []))) s4) as [[c|e] s6]; cbn [snd] in *; [|exact I].
    destruct (negb (is_none c)).
    2:{ destruct (l_host L (t_contract t)); cbn; [rewrite G1, M4; exact I|exact I]. }
    rewrite bind_eq. unfold load. set (s7 := set_mods _ s6). rewrite bind_eq. pose proof (fetch_find L (t_contract t) s7 s) as HF. destruct (fetch L (t_contract t) s7) as [[md|e] s8]; cbn [fst] in HF; [|exact I].
    rewrite bind_eq. destruct (deeper L fuel [t_contract t] (m_init md) s8) as [[v|e] s9]; [|exact I]. cbn [ret imported modify]. cbn [s_mods note set_log set_w set_mods]. rewrite dget_dset, str_eqb_refl.
    symmetry. apply HF. change (s_drv s7) with (s_drv s6). rewrite G2. apply F4. }
  destruct (plain_import L (deeper L fuel) Lib [] (t_contract t) s4) as [[x|e] s6]; [|discriminate EF]. rewrite bind_eq in EF. cbn [gets] in EF.
  assert (s5 = s6); [|subst; exact HP].
  destruct (match dget (t_contract t) (s_mods s6) with Some md => md | None => l_host L (t_contract t) end) as [md|]; [|discriminate EF]. destruct (dget (t_function t) (m_funcs md)); [injection EF as <-; reflexivity|discriminate EF].
Qed.
(** After any transaction, successful or failed at any point, the context stack is empty: for contracts whose top-level
    code calls nothing, and an entry function decorated with the name of its own contract. *)
Theorem C37_transaction_partial L fuel g t s r s' :
  plain_tops L -> entry_decorated L t s -> s_mods s = [] -> S fuel <= RECURSION_LIMIT ->
  stack_of s = [] -> execute L fuel g t s = (r, s') -> stack_of s' = [].
Proof.
  intros HL HD HM HF HS HE. apply execute_parts in HE as [(_ & ->)|(_ & r1 & s1 & HP & [HC _])]; [exact HS|].
  unfold stack_of. rewrite HC. fold (stack_of s1). clear HC.
  assert (M0 : mods_all (fun md => each calls_nothing (m_init md)) (s_mods (began s))) by (change (s_mods (began s)) with (s_mods s); rewrite HM; discriminate).
  destruct (prepare_ctx L fuel g t (fun md => each calls_nothing (m_init md)) (pl_interp _ HL) (fun _ H => H) (began s) M0) as ([P1 _] & P2 & _).
  change (stack_of (began s)) with (stack_of s) in P1. rewrite HS in P1.
  assert (HK : forall kw s2 x s3, prepare L fuel g t (began s) = (Ok kw, s2) -> entry_call L fuel t kw (primed g t s2) = (x, s3) -> stack_of s3 = []).
  { intros kw s2 x s3 EP EC. assert (HM' : s_mods (began s) = []) by exact HM. pose proof (prepare_found L fuel g t (began s) kw s2 HM' EP) as HFo.
    assert (EQ : fst (fetch L (t_contract t) (began s)) = fst (fetch L (t_contract t) s)) by (apply fetch_find; reflexivity). rewrite EQ in HFo. clear EQ.
    unfold entry_call, call in EC. rewrite bind_eq in EC. cbn [gets] in EC. rewrite primed_mods in EC.
    destruct (dget (t_contract t) (s_mods s2)) as [[md|]|] eqn:ED; [|contradiction|].
    - destruct (dget (t_function t) (m_funcs md)) as [f|] eqn:EFn; [|injection EC as _ <-; reflexivity].
      specialize (HD md f HFo EFn). unfold invoke in EC. rewrite HD in EC. unfold with_export in EC.
      assert (HT : top_ok (s_ctx (primed g t s2))) by exact I.
      assert (HDp : List.length (stack_of (primed g t s2)) < RECURSION_LIMIT) by (rewrite primed_stack; unfold RECURSION_LIMIT; cbn; lia).
      destruct (enter_back (t_contract t) (primed g t s2) HT HDp) as (_ & E2).
      destruct (prepare_ctx L fuel g t (fun md => each calls_nothing (m_init md)) (pl_interp _ HL) (fun _ H => H) (began s) M0) as (_ & _ & P3). rewrite EP in P3. destruct (P3 kw eq_refl) as [(B1 & _) _]. cbn [snd] in B1.
      assert (NC : context_changed (s_ctx (primed g t s2)) (t_contract t) = false).
      { unfold context_changed, get_state. fold (stack_of (primed g t s2)). rewrite primed_stack, primed_base, B1. cbn. rewrite str_eqb_refl. reflexivity. }
      assert (EE : enter (t_contract t) (primed g t s2) = (Ok tt, upd_ctx ins_state (primed g t s2))) by (unfold enter; rewrite bind_eq; cbn [gets]; rewrite NC; reflexivity).
      rewrite EE in EC, E2. cbn [fst snd] in E2. destruct E2 as (K1 & K2 & K3). rewrite primed_stack in K2, K3.
      set (s4 := note _ _) in EC.
      assert (HB : back fuel pyval [t_contract t] (deeper L fuel [t_contract t] (f_body f kw))).
      { destruct fuel as [|n]; [apply back_same; reflexivity|apply run_back]. }
      assert (S4 : stack_of s4 = []) by reflexivity.
      destruct (HB s4) as (_ & H2 & _); [exact I|rewrite S4; cbn; lia|]. rewrite S4 in H2.
      destruct (deeper L fuel [t_contract t] (f_body f kw) s4) as [y s5]. cbn [snd] in H2. injection EC as _ <-.
      unfold stack_of. change (s_ctx (upd_ctx pop_state s5)) with (pop_state (s_ctx s5)). rewrite pop_eq. cbn [cx_stack]. apply leaked_nil. exact H2.
    - rewrite bind_eq in EC. cbn [gets] in EC. destruct (str_mem _ _); [|injection EC as _ <-; reflexivity].
      destruct (l_host L (t_contract t)) as [md|] eqn:EH; [|injection EC as _ <-; reflexivity]. destruct (dget (t_function t) (m_funcs md)) as [f|] eqn:EFn; [|injection EC as _ <-; reflexivity].
      rewrite bind_eq in EC. cbn [modify] in EC. rewrite EP in P2. cbn [snd] in P2.
      destruct (deeper_quiet L (fun md => each calls_nothing (m_init md)) (pl_interp _ HL) (fun _ H => H) fuel [t_contract t] _ (pl_host _ HL _ _ _ _ kw EH EFn) (note (OHost (t_contract t) (t_function t)) (primed g t s2)) P2) as [[HQ _] _].
      rewrite EC in HQ. cbn [snd] in HQ. unfold stack_of. rewrite HQ. reflexivity. }
  destruct HP as [e s1 EP|kw s2 e s1 EP EC|kw s2 v s3 e s1 EP EC HA EM|kw s2 v s3 s1 EP EC EM].
  - rewrite EP in P1. exact P1.
  - exact (HK _ _ _ _ EP EC).
  - assert (HQ : quiet s3 s1) by (eapply auto_quiet; rewrite HA; exact EM). unfold stack_of. rewrite (proj1 HQ). exact (HK _ _ _ _ EP EC).
  - assert (HQ : quiet s3 s1) by (eapply auto_quiet; exact EM). unfold stack_of. rewrite (proj1 HQ). exact (HK _ _ _ _ EP EC).
Qed.

(** ** C37 refuted: a leaked frame stops the node *)
(** the innermost frame is one whose owner check failed *)
Definition stuck (s : mach) : Prop :=
  exists cs d r, stack_of s = (cs, d) :: r /\ is_none (c_owner cs) = false /\ is_owner (c_owner cs) (c_caller cs) = false.
Lemma stuck_prepare L fuel g t s : stuck s -> exists e, fst (prepare L fuel g t s) = Err e /\ stack_of (snd (prepare L fuel g t s)) = stack_of s.
Proof.
  intros (cs & d & r & HS & HN & HO). unfold prepare. rewrite bind_eq. destruct (admission_quiet g t s) as [[Q1 _] _].
  destruct (admission g t s) as [[[]|e] s1]; cbn [fst snd] in *; [|exists e; split; [reflexivity|unfold stack_of; rewrite Q1; reflexivity]].
  rewrite bind_eq. cbn [modify]. set (s2 := upd_r _ s1). assert (S2 : stack_of s2 = stack_of s) by (change (stack_of s2) with (stack_of s1); unfold stack_of; rewrite Q1; reflexivity). clearbody s2.
  rewrite bind_eq. unfold base_context. rewrite bind_eq. unfold on_w, on_drv. destruct (get_owner (t_contract t) (w_drv (s_w s2))) as [[o|e] v1]; cbn [fst snd]; [|exists e; split; [reflexivity|exact S2]].
  rewrite bind_eq. cbn [modify]. rewrite bind_eq. cbn [gets]. set (s3 := upd_ctx _ _). assert (S3 : stack_of s3 = stack_of s) by exact S2.
  assert (G : get_state (s_ctx s3) = cs) by (unfold get_state; fold (stack_of s3); rewrite S3, HS; reflexivity). rewrite G, HN, HO. cbn [orb raise fst snd]. exists EException. split; [reflexivity|exact S3].
Qed.
(** Executing transactions one after the other *)
Fixpoint executes (L : lang) (fuel : nat) (g : cfg) (ts : list txn) (s : mach) : list (result output) * mach :=
  match ts with
  | [] => ([], s)
  | t :: ts => let (r, s1) := execute L fuel g t s in let (rs, s2) := executes L fuel g ts s1 in (r :: rs, s2)
  end.
Definition fails (r : result output) : Prop := match r with Ok out => o_status out = 1%Z | Err _ => True end.
Lemma stuck_step L fuel g t s : stuck s -> fails (fst (execute L fuel g t s)) /\ stuck (snd (execute L fuel g t s)).
Proof.
  intros HS. destruct (execute L fuel g t s) as [r s'] eqn:HE. cbn [fst snd]. assert (HB : stuck (began s)) by exact HS.
  destruct (stuck_prepare L fuel g t _ HB) as (e & E1 & E2). split.
  - destruct r as [out|x]; [|exact I]. apply execute_inv in HE as (_ & r1 & s1 & w & s3 & HP & _ & _ & _ & ->). cbn [fails o_status].
    destruct HP as [e' s1 EP|kw s2 e' s1 EP EC|kw s2 v s4 e' s1 EP EC HA EM|kw s2 v s4 s1 EP EC EM]; try reflexivity. rewrite EP in E1. discriminate E1.
  - apply execute_parts in HE as [(_ & ->)|(_ & r1 & s1 & HP & [HC _])]; [exact HB|].
    assert (HX : stack_of s' = stack_of s).
    { unfold stack_of. rewrite HC. fold (stack_of s1). destruct HP as [e' s1 EP|kw s2 e' s1 EP EC|kw s2 v s4 e' s1 EP EC HA EM|kw s2 v s4 s1 EP EC EM]; rewrite EP in E1, E2; try discriminate E1. exact E2. }
    destruct HS as (cs & d & rr & HS1 & HS2). exists cs, d, rr. rewrite HX. split; assumption.
Qed.
Theorem C37_stuck_forever L fuel g ts s : stuck s -> Forall fails (fst (executes L fuel g ts s)).
Proof.
  revert s. induction ts as [|t ts IH]; intros s HS; [constructor|]. cbn [executes]. destruct (stuck_step L fuel g t s HS) as [H1 H2]. destruct (execute L fuel g t s) as [r s1]. cbn [fst snd] in *.
  specialize (IH s1 H2). destruct (executes L fuel g ts s1) as [rs s2]. cbn [fst] in *. constructor; assumption.
Qed.
(** [con_o] is owned by alice.  [con_e] calls it at its top level, [con_a] from an undecorated public function (in Python:
    'f = helper'): in both cases one transaction by anybody makes every later transaction fail. *)
Definition owned_mod := only_f (u "con_o") (PRet VNone).
Definition poke (k : prog) : prog := PImport Stmt (u "con_o") (PCall (u "con_o") (u "f") [] (fun _ => k)).
Definition top_mod := mkMod (poke (PRet VNone)) None [(u "f", mkFunc (Some (u "con_e")) (fun _ => PRet VNone))].
Definition alias_mod := mkMod (PRet VNone) None [(u "f", mkFunc None (fun _ => poke (PRet VNone)))].
Definition stuck_lang := demo [(u "con_o", owned_mod); (u "con_e", top_mod); (u "con_a", alias_mod)].
Definition stuck_start := idle_mach (deployed (u "con_o") (u "con_o") (VStr (u "alice")) ++ deployed (u "con_e") (u "con_e") VNone ++ deployed (u "con_a") (u "con_a") VNone ++ funded "bob" 100).
Definition stuck_run (c : string) := execute stuck_lang 10 cfg0 (call_of "bob" c "f") stuck_start.
Lemma stuck_run_stuck c : c = "con_e"%string \/ c = "con_a"%string -> stuck (snd (stuck_run c)) /\ exists out, fst (stuck_run c) = Ok out.
Proof.
  assert (H : forall c, match stack_of (snd (stuck_run c)) with (cs, _) :: _ => negb (is_none (c_owner cs)) && negb (is_owner (c_owner cs) (c_caller cs)) | [] => false end = true -> is_ok (fst (stuck_run c)) = true ->
    stuck (snd (stuck_run c)) /\ exists out, fst (stuck_run c) = Ok out).
  { intros c' H H'. split.
    - unfold stuck. destruct (stack_of (snd (stuck_run c'))) as [|[cs d] r]; [discriminate H|]. apply andb_prop in H as [H1 H2]. exists cs, d, r. split; [reflexivity|].
      split; [destruct (is_none (c_owner cs)); [discriminate H1|reflexivity]|destruct (is_owner (c_owner cs) (c_caller cs)); [discriminate H2|reflexivity]].
    - destruct (fst (stuck_run c')) as [out|]; [exists out; reflexivity|discriminate H']. }
  intros [->| ->]; apply H; vm_compute; reflexivity.
Qed.
Theorem C37_refuted : exists L g t s out s', idle s /\ stack_of s = [] /\ s_mods s = [] /\ execute L 10 g t s = (Ok out, s') /\ stack_of s' <> [] /\
  forall fuel ts, Forall fails (fst (executes L fuel g ts s')).
Proof.
  destruct (stuck_run_stuck "con_a" (or_intror eq_refl)) as [HS [out HO]]. exists stuck_lang, cfg0, (call_of "bob" "con_a" "f"), stuck_start, out, (snd (stuck_run "con_a")).
  split; [constructor; reflexivity|]. split; [reflexivity|]. split; [reflexivity|]. split; [rewrite <- HO; unfold stuck_run; apply surjective_pairing|]. split.
  - destruct HS as (cs & d & r & -> & _). discriminate.
  - intros fuel ts. apply C37_stuck_forever. exact HS.
Qed.
Theorem C37_top_level_refuted : exists L g t s out s', idle s /\ stack_of s = [] /\ s_mods s = [] /\ entry_decorated L t s /\ execute L 10 g t s = (Ok out, s') /\ stack_of s' <> [] /\
  forall fuel ts, Forall fails (fst (executes L fuel g ts s')).
Proof.
  destruct (stuck_run_stuck "con_e" (or_introl eq_refl)) as [HS [out HO]]. exists stuck_lang, cfg0, (call_of "bob" "con_e" "f"), stuck_start, out, (snd (stuck_run "con_e")).
  split; [constructor; reflexivity|]. split; [reflexivity|]. split; [reflexivity|]. split.
  { intros md f H1 H2. vm_compute in H1. injection H1 as <-. vm_compute in H2. injection H2 as <-. reflexivity. }
  split; [rewrite <- HO; unfold stuck_run; apply surjective_pairing|]. split.
  - destruct HS as (cs & d & r & -> & _). discriminate.
  - intros fuel ts. apply C37_stuck_forever. exact HS.
Qed.

(** ** C36, C38, C39 refuted for undecorated public functions *)
(** alice calls con_x.f, which calls the undecorated con_y.g, which emits an event and calls con_z.f; con_z is owned by con_x. *)
Definition say1 (k : prog) : prog := PAct (ActEmit (u "Sent") [(u "n", mkParam (Some [TInt]) false)] [(u "n", VInt 1)]) (fun _ => k).
Definition x_mod := only_f (u "con_x") (PImport Stmt (u "con_y") (PCall (u "con_y") (u "g") [] (fun _ => PRet VNone))).
Definition y_mod := mkMod (PRet VNone) None [(u "g", mkFunc None (fun _ => say1 (PImport Stmt (u "con_z") (PCall (u "con_z") (u "f") [] (fun _ => PRet VNone)))))].
Definition z_mod := only_f (u "con_z") (PRet VNone).
Definition xyz_lang := demo [(u "con_x", x_mod); (u "con_y", y_mod); (u "con_z", z_mod)].
Definition xyz_start := idle_mach (deployed (u "con_x") (u "con_x") VNone ++ deployed (u "con_y") (u "con_y") VNone ++ deployed (u "con_z") (u "con_z") (VStr (u "con_x")) ++ funded "alice" 100).
Definition xyz_run := execute xyz_lang 10 cfg0 (call_of "alice" "con_x" "f") xyz_start.

Definition body_of (o : obs) : list (list pystr * pystr * cstate) := match o with OBody ch c cs _ => [(ch, c, cs)] | _ => [] end.
(** con_z runs for con_y's code, which the owner does not admit, and sees con_x as the caller *)
Theorem C36_C38_undecorated_refuted : exists L g t s out s' chain cs v, idle s /\ execute L 10 g t s = (Ok out, s') /\ o_status out = 0%Z /\
  In (OBody chain (u "con_z") cs v) (s_log s') /\ hd (t_contract t) chain = u "con_y" /\ expected_caller (t_sender t) (t_contract t) (u "con_z") chain = u "con_y" /\
  c_caller cs = Some (u "con_x") /\ fst (get_owner (u "con_z") v) = Ok (VStr (u "con_x")).
Proof.
  assert (HB : exists chain cs v, In (OBody chain (u "con_z") cs v) (s_log (snd xyz_run)) /\ chain = [u "con_y"; u "con_x"] /\ c_caller cs = Some (u "con_x") /\ fst (get_owner (u "con_z") v) = Ok (VStr (u "con_x"))).
  { assert (H : existsb (fun o => match o with OBody [a; b] c cs v => (str_eqb a (u "con_y") && str_eqb b (u "con_x") && str_eqb c (u "con_z") && ostr_eqb (c_caller cs) (Some (u "con_x")) &&
       match fst (get_owner (u "con_z") v) with Ok (VStr o) => str_eqb o (u "con_x") | _ => false end)%bool | _ => false end) (s_log (snd xyz_run)) = true) by (vm_compute; reflexivity).
    apply existsb_exists in H as (o & HI & H). destruct o as [| |[|a [|b [|]]] c cs v| |]; try discriminate H.
    apply andb_prop in H as [H H5]. apply andb_prop in H as [H H4]. apply andb_prop in H as [H H3]. apply andb_prop in H as [H1 H2].
    destruct (str_eqb_spec a (u "con_y")); [|discriminate H1]. destruct (str_eqb_spec b (u "con_x")); [|discriminate H2]. destruct (str_eqb_spec c (u "con_z")); [|discriminate H3]. subst a b c.
    exists [u "con_y"; u "con_x"], cs, v. split; [exact HI|]. split; [reflexivity|]. split.
    - destruct (c_caller cs) as [x|]; [|discriminate H4]. cbn [ostr_eqb] in H4. destruct (str_eqb_spec x (u "con_x")); [subst; reflexivity|discriminate H4].
    - destruct (fst (get_owner (u "con_z") v)) as [[]|]; try discriminate H5. destruct (str_eqb_spec s (u "con_x")); [subst; reflexivity|discriminate H5]. }
  destruct HB as (chain & cs & v & H1 & H2 & H3 & H4).
  assert (HO : match fst xyz_run with Ok out => o_status out = 0%Z | Err _ => False end) by (vm_compute; reflexivity).
  destruct (fst xyz_run) as [out|] eqn:HX; [|contradiction].
  exists xyz_lang, cfg0, (call_of "alice" "con_x" "f"), xyz_start, out, (snd xyz_run), chain, cs, v.
  split; [constructor; reflexivity|]. split; [rewrite <- HX; unfold xyz_run; apply surjective_pairing|]. split; [exact HO|]. split; [exact H1|]. subst chain.
  split; [reflexivity|]. split; [reflexivity|]. split; assumption.
Qed.
(** con_y's event is reported as con_x's *)
Theorem C39_refuted : exists L g t s out s', idle s /\ execute L 10 g t s = (Ok out, s') /\ o_status out = 0%Z /\ t_contract t = u "con_x" /\
  (forall b md f a, l_interp L b = Ok md -> dget (u "f") (m_funcs md) = Some f -> each (fun p => match p with PAct (ActEmit _ _ _) _ => False | _ => True end) (f_body f a)) /\
  exists e, o_events out = [e] /\ ev_contract e = Some (u "con_x").
Proof.
  assert (HO : match fst xyz_run with Ok out => o_status out = 0%Z /\ map ev_contract (o_events out) = [Some (u "con_x")] | Err _ => False end) by (vm_compute; split; reflexivity).
  destruct (fst xyz_run) as [out|] eqn:HX; [|contradiction]. destruct HO as [HO HV].
  exists xyz_lang, cfg0, (call_of "alice" "con_x" "f"), xyz_start, out, (snd xyz_run).
  split; [constructor; reflexivity|]. split; [rewrite <- HX; unfold xyz_run; apply surjective_pairing|]. split; [exact HO|]. split; [reflexivity|]. split.
  - intros b md f a HI HF. unfold xyz_lang, demo in HI. cbn [l_interp] in HI. cbn [dget] in HI.
    destruct (str_eqb b (u "con_x")); [injection HI as <-; vm_compute in HF; injection HF as <-; cbn; repeat split|].
    destruct (str_eqb b (u "con_y")); [injection HI as <-; vm_compute in HF; discriminate HF|].
    destruct (str_eqb b (u "con_z")); [injection HI as <-; vm_compute in HF; injection HF as <-; cbn; repeat split|discriminate HI].
  - destruct (o_events out) as [|e [|]]; try discriminate HV. exists e. split; [reflexivity|]. injection HV as HV. exact HV.
Qed.

(** ** C36 refuted for entries by another name *)
(** con_a is stored and committed; alice calls it as 'con_a:z', which the store takes for con_a *)
Definition alias_lang := demo [(u "con_a", only_f (u "con_a") (PRet (VInt 7)))].
Definition alias_start := mkS (mkW (snd (commit (set_writes (deployed (u "con_a") (u "con_a") VNone ++ funded "alice" 100) (driver0 false [])))) Properties.DriverProps.rt0) [] [] false [].
Definition alias_run := execute alias_lang 10 cfg0 (call_of "alice" "con_a:z" "f") alias_start.
(** the function alice calls runs as con_a's, with a caller who is neither alice nor a contract that called it *)
Theorem C36_entry_alias_refuted : exists L g t s out s' cs v, idle s /\ execute L 10 g t s = (Ok out, s') /\ o_status out = 0%Z /\ t_sender t = u "alice" /\
  dv_writes (s_drv s) = [] /\ In (OBody [] (u "con_a") cs v) (s_log s') /\ c_this cs = Some (u "con_a") /\ c_signer cs = Some (u "alice") /\ c_caller cs = Some (u "con_a:z").
Proof.
  assert (HB : exists cs v, In (OBody [] (u "con_a") cs v) (s_log (snd alias_run)) /\ c_this cs = Some (u "con_a") /\ c_signer cs = Some (u "alice") /\ c_caller cs = Some (u "con_a:z")).
  { assert (H : existsb (fun o => match o with OBody [] c cs v => (str_eqb c (u "con_a") && ostr_eqb (c_this cs) (Some (u "con_a")) && ostr_eqb (c_signer cs) (Some (u "alice")) &&
       ostr_eqb (c_caller cs) (Some (u "con_a:z")))%bool | _ => false end) (s_log (snd alias_run)) = true) by (vm_compute; reflexivity).
    apply existsb_exists in H as (o & HI & H). destruct o as [| |[|a b] c cs v| |]; try discriminate H.
    apply andb_prop in H as [H H4]. apply andb_prop in H as [H H3]. apply andb_prop in H as [H1 H2].
    destruct (str_eqb_spec c (u "con_a")); [|discriminate H1]. subst c. exists cs, v. split; [exact HI|].
    assert (HS : forall o x, ostr_eqb o (Some x) = true -> o = Some x).
    { intros [y|] x E; [|discriminate E]. cbn [ostr_eqb] in E. destruct (str_eqb_spec y x); [subst; reflexivity|discriminate E]. }
    split; [apply HS; exact H2|]. split; apply HS; assumption. }
  destruct HB as (cs & v & H1 & H2 & H3 & H4).
  assert (HO : match fst alias_run with Ok out => o_status out = 0%Z | Err _ => False end) by (vm_compute; reflexivity).
  destruct (fst alias_run) as [out|] eqn:HX; [|contradiction].
  exists alias_lang, cfg0, (call_of "alice" "con_a:z" "f"), alias_start, out, (snd alias_run), cs, v.
  split; [constructor; reflexivity|]. split; [rewrite <- HX; unfold alias_run; apply surjective_pairing|]. split; [exact HO|]. split; [reflexivity|].
  split; [vm_compute; reflexivity|]. split; [exact H1|]. split; [exact H2|]. split; assumption.
Qed.

(** ** The hypotheses are met *)
Lemma dget_forall {A} (P : A -> Prop) (d : dict A) k v : Forall (fun kv => P (snd kv)) d -> dget k d = Some v -> P v.
Proof. induction d as [|[k' v'] d IH]; cbn; [discriminate|]. intros H. inversion H; subst. destruct (str_eqb k k'); [intros E; injection E as <-; assumption|auto]. Qed.
Lemma demo_regular mods : Forall (fun kv => decorated (snd kv)) mods -> regular (demo mods).
Proof.
  intros H. constructor.
  - intros b md E. unfold demo in E. cbn [l_interp] in E. destruct (dget b mods) eqn:D; [|discriminate E]. injection E as <-. exact (dget_forall _ _ _ _ H D).
  - intros n md m f a E F. unfold demo in E. cbn [l_host] in E. destruct (str_eqb n (u "os")); [|discriminate E]. injection E as <-. cbn [os_module m_funcs dget] in F. destruct (str_eqb m (u "system")); [injection F as <-; cbn; auto|discriminate F].
Qed.
Lemma only_f_decorated name p : each public_calls p -> decorated (only_f name p).
Proof.
  intros H. constructor; [cbn; auto| |].
  - constructor; [cbn; auto|discriminate|]. intros n f a E. cbn [only_f m_funcs dget] in E. destruct (str_eqb n (u "f")); [injection E as <-; exact H|discriminate E].
  - intros n f E _. cbn [only_f m_funcs dget] in E. destruct (str_eqb n (u "f")); [injection E as <-; discriminate|discriminate E].
Qed.
Lemma some_inj {A} (x y : A) : Some x = Some y -> x = y. Proof. congruence. Qed.
(** the submission contract is regular *)
Lemma submission_decorated L : decorated (submission_modul L).
Proof.
  assert (HR : forall e, each public_calls (PRaise e)) by (cbn; auto).
  constructor; [cbn; auto| |].
  - constructor; [cbn; auto|discriminate|]. intros n f a E. unfold submission_modul in E. cbn [m_funcs dget] in E. destruct (str_eqb n (u "submit_contract")).
    + apply some_inj in E. subst f. cbn [f_body]. destruct (dget (u "name") a) as [[]|]; try apply HR. destruct (dget (u "code") a) as [[]|]; try apply HR. destruct (dict_args _); [|apply HR].
      cbn [submit_contract_body each public_calls]. split; [exact I|]. intros cs.
      destruct (_ && _)%bool; [apply HR|]. destruct (negb (ostr_eqb _ _)); [apply HR|]. destruct (negb (Nat.leb _ _)); [apply HR|]. destruct (negb (l_islower L s)); [apply HR|].
      cbn [submit_prog each public_calls]. split; [exact I|]. intros v. destruct (negb (is_none v)); [apply HR|]. cbn [each public_calls]. split; [exact I|]. intros w.
      destruct (l_compile L s s0); [|apply HR]. cbn. auto.
    + destruct (str_eqb n (u "change_developer")); [|discriminate E]. apply some_inj in E. subst f. cbn [f_body]. destruct (dget (u "contract") a) as [[]|]; try apply HR. destruct (dget (u "new_developer") a); [|apply HR].
      cbn [change_developer_body each public_calls]. split; [exact I|]. intros cs. split; [exact I|]. intros v. destruct (is_owner v (c_caller cs)); [|apply HR]. cbn. auto.
  - intros n f E _. unfold submission_modul in E. cbn [m_funcs dget] in E. destruct (str_eqb n (u "submit_contract")); [injection E as <-; discriminate|]. destruct (str_eqb n (u "change_developer")); [injection E as <-; discriminate|discriminate E].
Qed.
(** con_p.f calls con_q.f, which is owned by con_p and calls con_r.f, which calls con_q.f again and fails there *)
Definition calls (c : string) (k : prog) : prog := PImport Stmt (u c) (PCall (u c) (u "f") [] (fun _ => k)).
Definition p_mod := only_f (u "con_p") (calls "con_q" (PRet VNone)).
Definition q_mod := only_f (u "con_q") (PCtx (fun cs => if ostr_eqb (c_caller cs) (Some (u "con_p")) then calls "con_r" (PRet VNone) else PRaise EAssertion)).
Definition r_mod := only_f (u "con_r") (calls "con_q" (PRet VNone)).
Definition pqr_lang := demo [(u "con_p", p_mod); (u "con_q", q_mod); (u "con_r", r_mod)].
Definition pqr_start (owner : pyval) := idle_mach (deployed (u "con_p") (u "con_p") VNone ++ deployed (u "con_q") (u "con_q") owner ++ deployed (u "con_r") (u "con_r") VNone ++ funded "alice" 100).
Definition pqr_run (owner : pyval) := execute pqr_lang 10 cfg0 (call_of "alice" "con_p" "f") (pqr_start owner).
Lemma pqr_regular : regular pqr_lang.
Proof.
  apply demo_regular. apply Forall_cons; [apply only_f_decorated; cbn; repeat split|]. apply Forall_cons; [apply only_f_decorated; cbn|].
  - split; [exact I|]. intros cs. destruct (ostr_eqb _ _); cbn; repeat split.
  - apply Forall_cons; [apply only_f_decorated; cbn; repeat split|]. constructor.
Qed.
Example C36_example : regular pqr_lang /\ mods_all decorated (s_mods (pqr_start VNone)) /\ plain_tops pqr_lang /\ entry_decorated pqr_lang (call_of "alice" "con_p" "f") (pqr_start VNone) /\ stack_of (pqr_start VNone) = [] /\
  flat_map (fun o => match o with OBody ch c cs _ => [(ch, c, c_caller cs)] | _ => [] end) (s_log (snd (pqr_run VNone))) =
    [([], u "con_p", Some (u "alice")); ([u "con_p"], u "con_q", Some (u "con_p")); ([u "con_q"; u "con_p"], u "con_r", Some (u "con_q")); ([u "con_r"; u "con_q"; u "con_p"], u "con_q", Some (u "con_r"))].
Proof.
  split; [exact pqr_regular|]. split; [intros n md E; cbn in E; discriminate E|]. split; [constructor; [intros b md H; apply (de_init _ (rg_interp _ pqr_regular _ _ H))|exact (rg_host _ pqr_regular)]|].
  split; [intros md f H1 H2; vm_compute in H1; injection H1 as <-; vm_compute in H2; injection H2 as <-; reflexivity|]. split; [reflexivity|]. vm_compute. reflexivity.
Qed.
(** with an owner the last call is refused; its frame is gone after the transaction *)
Example C38_example : map (fun o => match o with OBody _ c _ _ => c | _ => [] end) (filter (fun o => match o with OBody _ _ _ _ => true | _ => false end) (s_log (snd (pqr_run (VStr (u "con_p")))))) = [u "con_p"; u "con_q"; u "con_r"] /\
  match fst (pqr_run (VStr (u "con_p"))) with Ok out => o_result out = Err EException | Err _ => False end /\ stack_of (snd (pqr_run (VStr (u "con_p")))) = [].
Proof. vm_compute. repeat split. Qed.
Print Assumptions C36_context_partial.
Print Assumptions C36_C38_undecorated_refuted.
Print Assumptions C37_call_restores.
Print Assumptions C37_transaction_partial.
Print Assumptions C37_stuck_forever.
Print Assumptions C37_refuted.
Print Assumptions C37_top_level_refuted.
Print Assumptions C37_refused_owner_leaks_refuted.
Print Assumptions C38_owner_partial.
Print Assumptions C39_refuted.
