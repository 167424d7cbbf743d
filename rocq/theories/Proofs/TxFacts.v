(** * The phases of a transaction *)
From Verif Require Import Model.Base Model.State Model.Dec Model.Time Model.Value Model.Encoder Model.Hdf5 Model.Runtime Model.Driver Model.Orm Model.Exec Model.Executor.
From Verif Require Import Spec.OrmSpec Spec.ExecSpec Proofs.BaseFacts Proofs.DriverFacts Proofs.OrmFacts Proofs.ExecFacts Proofs.ExecRel Proofs.MeterFacts.
From Coq Require Import Lia.

Section Tx.
  Variables (L : lang) (fuel : nat) (g : cfg) (t : txn).
  (** the machine when the try block starts *)
  Definition began (s : mach) : mach := upd_d (fun v => clear_events (clear_transaction_writes v)) (fresh_log s).
  (** everything before restricted imports are enabled *)
  Definition prepare : st mach (dict pyval) :=
    admission g t;;
    modify (upd_r (fun r => set_env (dupdate (rt_env r) (t_env t)) r));;
    base_context t;;
    find_function L fuel t;;
    submission_name t;;
    lift (float_args (t_kwargs t)).
  Lemma attempt_eq s : attempt L fuel g t s = (let! kw := prepare in call_entry L fuel g t kw) s.
  Proof.
    unfold attempt, prepare. unfold bind, modify.
    destruct (admission g t s) as [[x|e] s1]; [|reflexivity]. destruct (base_context t _) as [[y|e] s2]; [|reflexivity].
    destruct (find_function L fuel t s2) as [[z|e] s3]; [|reflexivity]. destruct (submission_name t s3) as [[w|e] s4]; [|reflexivity]. reflexivity.
  Qed.
  (** the machine when the entry function is called *)
  Definition primed (s : mach) : mach := upd_r (set_up (t_stamps t * 1000) (metered g t)) (set_restricted true s).
  Definition entry_call (kw : dict pyval) : st mach pyval := call L (deeper L fuel) [] (t_contract t) (t_function t) kw.
  (** the machine after it returned, before auto-commit *)
  Definition stopped (s : mach) : mach := set_restricted false (upd_r (fun r => set_tracer (tr_stop (rt_tracer r)) r) s).
  Inductive phases (s : mach) : result (pyval * dict pyval * list event) -> mach -> Prop :=
  | ph_early e s' : prepare s = (Err e, s') -> phases s (Err e) s'
  | ph_call kw s1 e s' : prepare s = (Ok kw, s1) -> entry_call kw (primed s1) = (Err e, s') -> phases s (Err e) s'
  | ph_commit kw s1 v s2 e s' : prepare s = (Ok kw, s1) -> entry_call kw (primed s1) = (Ok v, s2) ->
      t_auto t = true -> on_w (on_drv commit) (stopped s2) = (Err e, s') -> phases s (Err e) s'
  | ph_done kw s1 v s2 s' : prepare s = (Ok kw, s1) -> entry_call kw (primed s1) = (Ok v, s2) ->
      (if t_auto t then on_w (on_drv commit) else ret tt) (stopped s2) = (Ok tt, s') ->
      phases s (Ok (v, dv_txn (s_drv s2), dv_events (s_drv s2))) s'.
  Lemma attempt_phases s r s' : attempt L fuel g t s = (r, s') -> phases s r s'.
  Proof.
    rewrite attempt_eq, bind_eq. destruct (prepare s) as [[kw|e] s1] eqn:EP; [|intros E; injection E as <- <-; apply ph_early; assumption].
    intros E. unfold call_entry in E. rewrite bind_eq in E. cbn [modify] in E. rewrite bind_eq in E. cbn [modify] in E. fold (primed s1) in E.
    rewrite bind_eq in E. fold (entry_call kw) in E. destruct (entry_call kw (primed s1)) as [[v|e] s2] eqn:EC; [|injection E as <- <-; eapply ph_call; eassumption].
    rewrite bind_eq in E. cbn [gets] in E. rewrite bind_eq in E. cbn [modify] in E. rewrite bind_eq in E. cbn [modify] in E. rewrite bind_eq in E. fold (stopped s2) in E.
    destruct ((if t_auto t then on_w (on_drv commit) else ret tt) (stopped s2)) as [[[]|e] s3] eqn:EA.
    - injection E as <- <-. eapply ph_done; eassumption.
    - destruct (t_auto t) eqn:A; [|discriminate]. injection E as <- <-. eapply ph_commit; eassumption.
  Qed.

  Lemma auto_same s r s' : (if t_auto t then on_w (on_drv commit) else ret tt) (stopped s) = (r, s') ->
    s_log s' = s_log s /\ s_rt s' = set_tracer (tr_stop (rt_tracer (s_rt s))) (s_rt s) /\ s_mods s' = s_mods s /\ s_hosts s' = s_hosts s /\ s_restricted s' = false /\
    (t_auto t = false -> s_drv s' = s_drv s).
  Proof.
    destruct (t_auto t).
    - unfold on_w, on_drv. destruct (commit (w_drv (s_w (stopped s)))) as [x v]. intros E. injection E as _ <-. cbn. repeat (split; [reflexivity|]). discriminate.
    - intros E. injection E as _ <-. cbn. repeat (split; [reflexivity|]). reflexivity.
  Qed.
  (** what execute reports *)
  Definition restore (saved : dict pyval) (r : result (pyval * dict pyval * list event)) (s : mach) : mach :=
    finally (match r with Ok _ => s | Err _ => revert t saved s end).
  Definition written (r : result (pyval * dict pyval * list event)) : dict pyval := match r with Ok (_, w, _) => w | Err _ => [] end.
  Lemma restore_same saved r s : s_log (restore saved r s) = s_log s /\ s_rt (restore saved r s) = set_tracer (tr_stop (rt_tracer (s_rt s))) (s_rt s) /\
    s_mods (restore saved r s) = s_mods s /\ s_hosts (restore saved r s) = s_hosts s /\ s_restricted (restore saved r s) = s_restricted s.
  Proof. unfold restore. destruct r; repeat split. Qed.
  Lemma restore_drv_ok saved v s : s_drv (restore saved (Ok v) s) = set_txn [] (set_events [] (s_drv s)).
  Proof. reflexivity. Qed.
  Lemma restore_drv_err saved e s : t_auto t = false -> s_drv (restore saved (Err e) s) = set_txn [] (set_events [] (set_writes saved (s_drv s))).
  Proof. intros H. unfold restore, revert. rewrite H. reflexivity. Qed.
  Lemma transact_inv saved s out s' : transact L fuel g t saved s = (Ok out, s') ->
    exists r s1 w s3, phases s r s1 /\ r <> Err EBase /\
      charge_fee L g t (stamps_used t (restore saved r s1)) (written r) (restore saved r s1) = (Ok w, s3) /\ s' = wind_up s3 /\
      out = mkOut (match r with Ok _ => 0%Z | Err _ => 1%Z end) (match r with Ok (v, _, _) => Ok v | Err e => Err e end)
                  (stamps_used t (restore saved r s1)) w (dv_reads (s_drv s3)) (match r with Ok (_, _, e) => e | Err _ => [] end).
  Proof.
    unfold transact. destruct (attempt L fuel g t s) as [r s1] eqn:EA. intros E. exists r, s1. apply attempt_phases in EA.
    unfold restore, written. destruct r as [[[v w] ev]|e].
    - destruct (charge_fee L g t (stamps_used t (finally s1)) w (finally s1)) as [[w'|e] s3] eqn:EF; [|discriminate].
      injection E as <- <-. exists w', s3. split; [exact EA|]. split; [discriminate|]. split; [first [exact EF|reflexivity]|]. split; reflexivity.
    - assert (HE : e <> EBase) by (intros ->; discriminate).
      assert (E2 : match charge_fee L g t (stamps_used t (finally (revert t saved s1))) [] (finally (revert t saved s1)) with
        | (Ok writes, s) => (Ok (mkOut 1 (Err e) (stamps_used t (finally (revert t saved s1))) writes (dv_reads (s_drv s)) []), wind_up s)
        | (Err e, s) => (Err e, s) end = (Ok out, s')) by (destruct e; try exact E; exfalso; apply HE; reflexivity). clear E.
      destruct (charge_fee L g t (stamps_used t (finally (revert t saved s1))) [] (finally (revert t saved s1))) as [[w'|e'] s3] eqn:EF; [|discriminate].
      injection E2 as <- <-. exists w', s3. split; [exact EA|]. split; [intros X; injection X as X; exact (HE X)|]. split; [first [exact EF|reflexivity]|]. split; reflexivity.
  Qed.
  Lemma execute_inv s out s' : execute L fuel g t s = (Ok out, s') ->
    refused g t = false /\
    exists r s1 w s3, phases (began s) r s1 /\ r <> Err EBase /\
      charge_fee L g t (stamps_used t (restore (dv_writes (s_drv s)) r s1)) (written r) (restore (dv_writes (s_drv s)) r s1) = (Ok w, s3) /\ s' = wind_up s3 /\
      out = mkOut (match r with Ok _ => 0%Z | Err _ => 1%Z end) (match r with Ok (v, _, _) => Ok v | Err e => Err e end)
                  (stamps_used t (restore (dv_writes (s_drv s)) r s1)) w (dv_reads (s_drv s3)) (match r with Ok (_, _, e) => e | Err _ => [] end).
  Proof.
    unfold execute. intros E. destruct (refused g t); [discriminate|]. split; [reflexivity|]. exact (transact_inv _ _ _ _ E).
  Qed.

  (** ** Relations through the preparation *)
  Section Prep.
    Variable Rel : mach -> bool -> mach -> Prop.
    Hypothesis R_refl : forall s b, Rel s b s.
    Hypothesis R_trans : forall s b s1 s2, Rel s true s1 -> Rel s1 b s2 -> Rel s b s2.
    Hypothesis R_glue : forall s s1 b, glue s s1 -> s_mods s1 = s_mods s -> s_hosts s1 = s_hosts s -> s_log s1 = s_log s -> Rel s b s1.
    Hypothesis R_env : forall s b e, Rel s b (upd_r (fun r => set_env e r) s).
    Hypothesis R_import : forall s, Rel s (is_ok (fst (plain_import L (deeper L fuel) Lib [] (t_contract t) s))) (snd (plain_import L (deeper L fuel) Lib [] (t_contract t) s)).
    Definition pt {A} (m : st mach A) : Prop := forall s, Rel s (is_ok (fst (m s))) (snd (m s)).
    Lemma pt_bind A B (m : st mach A) (k : A -> st mach B) : pt m -> (forall a, pt (k a)) -> pt (bind m k).
    Proof using R_trans.
      intros Hm Hk s. unfold bind. specialize (Hm s). destruct (m s) as [[a|e] s1]; cbn [fst snd is_ok] in *; [|exact Hm].
      eapply R_trans; [exact Hm | apply Hk].
    Qed.
    Lemma pt_ret A (a : A) : pt (ret a). Proof using R_refl. intros s; apply R_refl. Qed.
    Lemma pt_lift A (r : result A) : pt (lift r). Proof using R_refl. intros s; apply R_refl. Qed.
    Lemma pt_raise A e : pt (raise e : st mach A). Proof using R_refl. intros s; apply R_refl. Qed.
    Lemma pt_gets A (f : mach -> A) : pt (gets f). Proof using R_refl. intros s; apply R_refl. Qed.
    Lemma pt_read A (m : st driver A) : reads_only m -> reads_grow m -> pt (on_w (on_drv m)).
    Proof using R_glue. intros H HG s. apply R_glue; [apply glue_read; assumption|apply on_w_mods|apply on_w_hosts|unfold on_w, on_drv; destruct (m _); reflexivity]. Qed.
    Lemma prepare_rel : pt prepare.
    Proof using R_refl R_trans R_glue R_env R_import.
      unfold prepare. apply pt_bind; [|intros _; apply pt_bind; [|intros _; apply pt_bind; [|intros _; apply pt_bind; [|intros _; apply pt_bind; [|intros _; apply pt_lift]]]]].
      - unfold admission. destruct (metered g t); [|apply pt_ret]. apply pt_bind; [|intros bal; apply pt_bind; [apply pt_lift|intros b; apply pt_lift]].
        destruct (g_bypass_balance g); [apply pt_ret|]. apply pt_bind; [apply pt_read; [apply ro_get|apply rg_get]|intros b; apply pt_lift].
      - intros s. exact (R_env s true (dupdate (rt_env (s_rt s)) (t_env t))).
      - unfold base_context. apply pt_bind; [apply pt_read; [apply ro_owner|apply rg_owner]|]. intros o. apply pt_bind; [intros s; apply R_glue; [apply glue_ctx|reflexivity..]|]. intros _.
        apply pt_bind; [apply pt_gets|]. intros cs. destruct (_ || _)%bool; [apply pt_ret|apply pt_raise].
      - unfold find_function. apply pt_bind; [exact R_import|]. intros _. apply pt_bind; [apply pt_gets|]. intros f.
        destruct (match f with Some md => md | None => l_host L (t_contract t) end) as [md|]; [|apply pt_raise]. destruct (dget _ _); [apply pt_ret|apply pt_raise].
      - unfold submission_name. destruct (str_eqb (t_contract t) SUBMISSION); [|apply pt_ret]. intros s. apply R_glue; [apply glue_ctx|reflexivity..].
    Qed.
  End Prep.

  (** ** The fee *)
  Lemma set_rt_off k v b w : tr_started (rt_tracer (w_rt w)) = false -> w_rt (snd (set k v b w)) = w_rt w.
  Proof.
    intros H. remember (set k v b w) as R eqn:ER. unfold set in ER. rewrite bind_eq in ER. cbn [lift] in ER.
    destruct (encode_kv_len k v) as [[kl vl]|e]; [|subst R; reflexivity]. rewrite bind_eq in ER. unfold on_rt, deduct_write in ER. rewrite H in ER.
    unfold on_drv in ER. cbn [w_drv w_rt] in ER. destruct (set_body k v b (w_drv w)) as [x v']. subst R. reflexivity.
  Qed.
  Lemma max0_coerce x fee bal : minus_fee bal fee = Ok x -> coerce (max0 x) = Ok (max0 x) /\ max0 x <> VNone.
  Proof.
    assert (HD : forall d, coerce (max0 (VDec d)) = Ok (max0 (VDec d)) /\ max0 (VDec d) <> VNone).
    { intros d. cbn. destruct (fd_ltb d (mkfd false 0 0)); split; try reflexivity; discriminate. }
    intros H. destruct bal; cbn [minus_fee] in H; try discriminate H.
    - unfold bindr in H. destruct (cd_rop_int cd_sub 0 fee); [|discriminate]. injection H as <-. apply HD.
    - unfold bindr in H. destruct (get_other_bool b); [|discriminate]. destruct (cd_sub a fee); [|discriminate]. injection H as <-. apply HD.
    - unfold bindr in H. destruct (cd_rop_int cd_sub z fee); [|discriminate]. injection H as <-. apply HD.
    - unfold bindr in H. destruct (cd_sub d fee); [|discriminate]. injection H as <-. apply HD.
  Qed.
  Inductive fee_paid (used : Z) (writes : dict pyval) (s : mach) (w' : dict pyval) (s3 : mach) : Prop :=
  | mkFeePaid (fee : fd) (bal x : pyval) (reads : dict pyval) :
      t_rate t <> 0%Z -> cd_of_float (l_fdiv L used (t_rate t)) = Ok fee -> reads_as s (balance_key g t) = Ok bal -> minus_fee bal fee = Ok x ->
      w' = dset (balance_key g t) (max0 x) writes ->
      (let v := set_writes (dset (balance_key g t) (max0 x) (dv_writes (s_drv s))) (set_reads reads (s_drv s)) in
       if t_auto t then commit v = (Ok tt, s_drv s3) else s_drv s3 = v) ->
      fee_paid used writes s w' s3.
  Lemma charge_fee_inv used writes s w' s3 : tr_started (rt_tracer (s_rt s)) = false -> charge_fee L g t used writes s = (Ok w', s3) ->
    s_log s3 = s_log s /\ s_rt s3 = s_rt s /\ s_mods s3 = s_mods s /\ s_hosts s3 = s_hosts s /\ s_restricted s3 = s_restricted s /\
    (metered g t = false /\ s3 = s /\ w' = writes \/ metered g t = true /\ fee_paid used writes s w' s3).
  Proof.
    intros S0. unfold charge_fee. destruct (metered g t).
    2:{ intros E. injection E as <- <-. repeat (split; [reflexivity|]). left. split; [reflexivity|]. split; reflexivity. }
    intros E. rewrite bind_eq in E. cbn [lift] in E. destruct (Z.eqb_spec (t_rate t) 0) as [|Hr]; [discriminate E|].
    destruct (cd_of_float (l_fdiv L used (t_rate t))) as [fee|e] eqn:EF; [|discriminate E].
    rewrite bind_eq in E. unfold on_w in E at 1. destruct (get_upd (balance_key g t) (s_w s)) as (x0 & HG). rewrite HG in E.
    destruct (find (balance_key g t) (w_drv (s_w s))) as [bal|e] eqn:EB; [|discriminate E].
    rewrite bind_eq in E. cbn [lift] in E. destruct (minus_fee bal fee) as [x|e] eqn:EX; [|discriminate E]. destruct (max0_coerce _ _ _ EX) as [HC HN].
    rewrite bind_eq in E. unfold on_w in E at 1. cbn [s_w set_w] in E.
    pose proof (set_rt_off (balance_key g t) (max0 x) false (upd_reads x0 (s_w s)) S0) as HRT.
    destruct (set_spec (balance_key g t) (max0 x) false (upd_reads x0 (s_w s))) as [(y & r & tx & HY & _ & HS & HD & HT)|(e & r & HS & _)].
    2:{ destruct (set (balance_key g t) (max0 x) false (upd_reads x0 (s_w s))) as [[[]|e'] w1]; cbn [fst] in HS; [discriminate HS|discriminate E]. }
    rewrite HC in HY. injection HY as <-. cbn [w_drv upd_reads] in HT. subst tx.
    destruct (set (balance_key g t) (max0 x) false (upd_reads x0 (s_w s))) as [[[]|e'] w1]; [|discriminate HS]. cbn [snd] in HD, HRT. clear HS.
    assert (HD' : w_drv w1 = set_writes (dset (balance_key g t) (max0 x) (dv_writes (s_drv s))) (set_reads r (s_drv s))).
    { rewrite HD. unfold s_drv, upd_reads. cbn [w_drv]. destruct (w_drv (s_w s)); reflexivity. }
    assert (HRD : reads_as s (balance_key g t) = Ok bal) by (unfold reads_as; rewrite get_result; exact EB).
    rewrite bind_eq in E. destruct (t_auto t) eqn:A.
    - unfold on_w, on_drv in E. cbn [s_w set_w] in E. destruct (commit (w_drv w1)) as [[[]|e] v2] eqn:EC; [|discriminate E].
      injection E as <- <-. repeat (split; [first [reflexivity | exact HRT]|]). right. split; [reflexivity|]. apply (mkFeePaid _ _ _ _ _ fee bal x r Hr EF HRD EX eq_refl).
      cbv zeta. rewrite A, <- HD'. exact EC.
    - cbn [ret] in E. injection E as <- <-. repeat (split; [first [reflexivity | exact HRT]|]). right. split; [reflexivity|]. apply (mkFeePaid _ _ _ _ _ fee bal x r Hr EF HRD EX eq_refl).
      cbv zeta. rewrite A. exact HD'.
  Qed.
End Tx.
