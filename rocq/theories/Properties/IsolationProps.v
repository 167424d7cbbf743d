(** * C104, C105: a contract's storage changes only through its own functions; loaded code does not outlive its transaction *)
From Verif Require Import Model.Base Model.State Model.Dec Model.Time Model.Value Model.Encoder Model.Hdf5 Model.Runtime Model.Driver Model.Orm Model.Exec Model.Executor.
From Verif Require Import Spec.OrmSpec Spec.ExecSpec Spec.IsolationSpec Proofs.BaseFacts Proofs.DriverFacts Proofs.OrmFacts Proofs.ExecFacts Proofs.ExecRel Proofs.SubmitFacts Proofs.TxFacts Proofs.MeterFacts Proofs.IsoFacts Proofs.ModFacts.
From Verif Require Import Properties.TxProps.
From Coq Require Import Lia.
Local Open Scope string_scope.
Local Open Scope list_scope.

(** ** C105 *)
(** Every module in sys.modules after a transaction was there before it: nothing it loaded stays *)
Theorem C105_no_module_outlives_partial L fuel g t s out s' : execute L fuel g t s = (Ok out, s') ->
  forall n o, dget n (s_mods s') = Some o -> dget n (s_mods s) = Some o.
Proof. apply executed_mods. Qed.
Theorem C105_fresh_stays_fresh_partial L fuel l s s' : history L fuel l s s' -> s_mods s = [] -> s_mods s' = [].
Proof.
  induction 1 as [s|g t s out s1 l s' A T E H IH|s s1 l s' E M H IH]; intros HS; [exact HS| |apply IH; rewrite M; exact HS].
  apply IH. pose proof (C105_no_module_outlives_partial L fuel g t s out s1 E) as HM. destruct (s_mods s1) as [|[n o] d]; [reflexivity|]. specialize (HM n o). rewrite HS in HM. cbn [dget] in HM. rewrite str_eqb_refl in HM. discriminate (HM eq_refl).
Qed.

(** ** C104 *)
Section Isolation.
  Variables (L : lang) (c : pystr) (Own : prog -> Prop) (R : (pystr -> result pyval) -> (pystr -> result pyval) -> Prop).
  Hypothesis HR : storage_relation c R.
  Hypothesis HL : honest_language L c.
  Hypothesis HK : keeps_storage L c Own R.
  Notation DW := (deployed_world L c Own).
  Notation tri := (preserves L c Own R).
  Lemma prepare_tri fuel g t : ~ In (ch ":") (t_contract t) -> tri (prepare L fuel g t).
  Proof using HR HL HK.
    intros Ht. unfold prepare. apply (tri_bind L c Own R HR).
    { unfold admission. destruct (metered g t); [|apply tri_ret, HR]. apply (tri_bind L c Own R HR); [destruct (g_bypass_balance g); [apply tri_ret, HR|apply (tri_bind L c Own R HR); [apply tri_read; [exact HR|apply ro_get]|intros; apply tri_lift, HR]]|].
      intros b. apply (tri_bind L c Own R HR); [apply tri_lift, HR|]. intros x. unfold check. destruct x; [apply tri_ret, HR|apply tri_raise]. }
    intros _. apply (tri_bind L c Own R HR); [apply tri_modify; [exact HR|reflexivity|reflexivity]|]. intros _. apply (tri_bind L c Own R HR).
    { unfold base_context. apply (tri_bind L c Own R HR); [apply tri_read; [exact HR|apply ro_owner]|]. intros o. apply (tri_bind L c Own R HR); [apply tri_modify; [exact HR|reflexivity|reflexivity]|]. intros _.
      apply (tri_bind L c Own R HR); [apply tri_gets, HR|]. intros cs. destruct (_ || _)%bool; [apply tri_ret, HR|apply tri_raise]. }
    intros _. apply (tri_bind L c Own R HR).
    { unfold find_function. apply (tri_bind L c Own R HR).
      - apply tri_plain; [exact HR| |exact Ht]. intros chn p Hp. apply (tri_levels L c Own R HR HL HK). left. exact Hp.
      - intros _. apply (tri_bind L c Own R HR); [apply tri_gets, HR|]. intros f. cbv zeta.
        destruct (match f with Some md => md | None => l_host L (t_contract t) end) as [md|]; [|apply tri_raise]. destruct (dget (t_function t) (m_funcs md)); [apply tri_ret, HR|apply tri_raise]. }
    intros _. apply (tri_bind L c Own R HR); [|intros _; apply tri_lift, HR]. unfold submission_name. destruct (str_eqb _ _); [apply tri_modify; [exact HR|reflexivity|reflexivity]|apply tri_ret, HR].
  Qed.
  Lemma entry_tri fuel g t kw s a s' : DW s -> entry_call L fuel t kw (primed g t s) = (Ok a, s') -> DW s' /\ R (look s) (look s').
  Proof using HR HL HK.
    intros D E. assert (D0 : DW (primed g t s)) by (destruct D as [A B C]; constructor; [exact A|exact B|exact C]).
    refine (tri_call L c Own R HR HL (deeper L fuel) _ _ _ [] (t_contract t) (t_function t) kw (primed g t s) a s' D0 E); intros chn p Hp; apply (tri_levels L c Own R HR HL HK); tauto.
  Qed.
  Lemma colon_fee g t : In (ch ":") (balance_key g t).
  Proof. unfold balance_key. apply in_or_app. right. apply in_or_app. right. apply in_or_app. right. left. reflexivity. Qed.
  (** One transaction: what is read afterwards is what was read after the contract code, which preserves the relation, with one
      entry, the fee account, changed by the fee *)
  Theorem C104_transaction fuel g t s out s' :
    ~ In (ch ":") c -> ~ In (ch ":") (t_contract t) -> t_auto t = false -> DW s -> execute L fuel g t s = (Ok out, s') ->
    DW s' /\ exists f, R (look s) f /\ (o_status out = 1%Z -> f = look s) /\ (forall k, k <> balance_key g t -> look s' k = f k) /\
      (metered g t = false -> forall k, look s' k = f k) /\
      (metered g t = true -> exists fee bal x, cd_of_float (l_fdiv L (o_stamps out) (t_rate t)) = Ok fee /\ f (balance_key g t) = Ok bal /\ minus_fee bal fee = Ok x /\
         look s' (balance_key g t) = if dv_bypass (s_drv s) then Ok bal else Ok (max0 x)).
  Proof using HR HL HK.
    intros NC NT A D HE. pose proof (executed_mods L fuel g t s out s' HE) as HM. apply execute_inv in HE as (_ & r & s1 & w & s3 & HP & _ & HF & -> & ->).
    pose proof (phases_pending _ _ _ _ _ _ _ HP A) as (pw & pr & px & pe & HD).
    set (s2 := restore t (dv_writes (s_drv s)) r s1) in *.
    assert (HB : dv_bypass (s_drv s2) = dv_bypass (s_drv s)).
    { unfold s2. destruct r as [v|e]; [rewrite restore_drv_ok, HD|rewrite (restore_drv_err _ _ _ _ A), HD]; reflexivity. }
    assert (H2 : exists sb, DW sb /\ R (look s) (look sb) /\ (forall k, look s2 k = look sb k) /\ (is_ok r = false -> sb = s)).
    { destruct r as [v|e].
      - inversion HP as [| | |kw sa v0 sb s0 EP EC EA E1 E2]; subst. assert (DB : forall k, look (began s) k = look s k) by (intros k; rewrite !look_find; apply find_frame; reflexivity). destruct (step_ok L c Own R HR s (began s) D (fun k _ => DB k) (dw_mods L c Own _ D)) as [D0 R0].
        destruct (prepare_tri fuel g t NT _ _ _ D0 EP) as [D1 R1]. destruct (entry_tri fuel g t kw sa v0 sb D1 EC) as [D2 R2]. destruct (auto_same t sb _ _ EA) as (_ & _ & _ & _ & _ & HS). specialize (HS A).
        exists sb. split; [exact D2|]. split; [exact (sr_trans c R HR _ _ _ R0 (sr_trans c R HR _ _ _ R1 R2))|]. split; [|discriminate]. intros k. unfold s2. rewrite !look_find, restore_drv_ok, HS. apply find_frame; reflexivity.
      - exists s. split; [exact D|]. split; [apply (sr_local c R HR); reflexivity|]. split; [|reflexivity]. intros k. unfold s2. rewrite !look_find, (restore_drv_err _ _ _ _ A), HD. apply find_frame; reflexivity. }
    destruct H2 as (sb & DB & RB & L2 & LS).
    destruct (charge_fee_inv L g t _ _ _ _ _ (restore_off t (dv_writes (s_drv s)) r s1) HF) as (_ & _ & _ & _ & _ & HC). fold s2 in HC. cbn [o_status o_stamps].
    assert (HC2 : (forall k, k <> balance_key g t -> look s3 k = look s2 k) /\ (metered g t = false -> forall k, look s3 k = look s2 k) /\
      (metered g t = true -> exists fee bal x, cd_of_float (l_fdiv L (stamps_used t s2) (t_rate t)) = Ok fee /\ look s2 (balance_key g t) = Ok bal /\ minus_fee bal fee = Ok x /\ look s3 (balance_key g t) = if dv_bypass (s_drv s) then Ok bal else Ok (max0 x))).
    { destruct HC as [(M & -> & _)|(M & [fee bal x reads _ EF EB EX _ HD3])]; [rewrite M; split; [reflexivity|]; split; [reflexivity|discriminate]|]. rewrite A in HD3. cbv zeta in HD3. split; [|split; [rewrite M; discriminate|]].
      - intros k Hk. rewrite !look_find, HD3. apply find_frame; try reflexivity. cbn. apply dget_dset_other. exact Hk.
      - intros _. exists fee, bal, x. split; [exact EF|]. split; [exact EB|]. split; [exact EX|]. destruct (dv_bypass (s_drv s)) eqn:B; [change (look s2 (balance_key g t) = Ok bal) in EB; rewrite <- EB, !look_find, HD3; unfold find; cbn [dv_bypass set_writes set_reads dv_writes]; rewrite HB; reflexivity|]. rewrite look_find, HD3. unfold find. cbn [dv_bypass set_writes set_reads dv_writes]. rewrite HB. unfold pget. rewrite dget_dset_same.
        destruct (max0_coerce _ _ _ EX) as [_ HN]. destruct (max0 x); try reflexivity. exfalso. apply HN. reflexivity. }
    destruct HC2 as (F1 & F2 & F3). change (look (wind_up s3)) with (look s3) in *.
    assert (F4 : forall k, ~ In (ch ":") k -> look s3 k = look sb k) by (intros k Hk; rewrite F1, L2; [reflexivity|intros ->; apply Hk, colon_fee]).
    assert (NU : forall n x, ~ In (ch ":") n -> ~ In (ch ":") x -> ~ In (ch ":") (n ++ x)) by (intros n x H1 H2 H3; apply in_app_or in H3; tauto).
    split.
    - constructor.
      + change (look (wind_up s3)) with (look s3). rewrite F4; [apply (dw_code L c Own _ DB)|]. apply NU; [exact NC|vm_compute; intuition discriminate].
      + change (look (wind_up s3)) with (look s3). intros n y b md Hn E. rewrite F4 in E; [exact (dw_stored L c Own _ DB n y b md Hn E)|]. apply NU; [exact Hn|vm_compute; intuition discriminate].
      + intros n md E. apply (dw_mods L c Own _ D n md). apply HM. exact E.
    - exists (look sb). split; [exact RB|]. split; [intros E; rewrite LS; [reflexivity|]; destruct r; [discriminate|reflexivity]|]. split; [intros k Hk; rewrite F1, L2 by exact Hk; reflexivity|].
      split; [intros M k; rewrite (F2 M), L2; reflexivity|]. intros M. destruct (F3 M) as (fee & bal & x & G1 & G2 & G3 & G4). rewrite L2 in G2. exists fee, bal, x. auto.
  Qed.
  (** ... so if the fee is taken elsewhere the transaction as a whole preserves the relation *)
  Theorem C104_fee_elsewhere fuel g t s out s' :
    ~ In (ch ":") c -> ~ In (ch ":") (t_contract t) -> t_auto t = false -> fee_elsewhere c (g, t) -> DW s -> execute L fuel g t s = (Ok out, s') -> DW s' /\ R (look s) (look s').
  Proof using HR HL HK.
    intros NC NT A HF D E. destruct (C104_transaction fuel g t s out s' NC NT A D E) as (D' & f & Rf & _ & F1 & F2 & _). split; [exact D'|]. eapply (sr_trans c R HR); [exact Rf|]. apply (sr_local c R HR). intros k Hk.
    destruct HF as [M|HF]; [exact (F2 M k)|]. apply F1. intros ->. exact (HF Hk).
  Qed.
  (** Histories of any length *)
  Theorem C104_history fuel l s s' : ~ In (ch ":") c -> Forall (fee_elsewhere c) l -> history L fuel l s s' -> DW s -> DW s' /\ R (look s) (look s').
  Proof using HR HL HK.
    intros NC. intros HF H. revert HF. induction H as [s|g t s out s1 l s' A T E H IH|s s1 l s' E M H IH]; intros HF D.
    - split; [exact D|]. apply (sr_local c R HR). reflexivity.
    - inversion HF as [|x y F1 F2]; subst. destruct (C104_fee_elsewhere fuel g t s out s1 NC T A F1 D E) as [D1 R1]. destruct (IH F2 D1) as [D2 R2]. split; [exact D2|]. exact (sr_trans c R HR _ _ _ R1 R2).
    - destruct (step_ok L c Own R HR s s1 D (fun k _ => E k)) as [D1 R1]; [rewrite M; apply (dw_mods L c Own _ D)|]. destruct (IH HF D1) as [D2 R2]. split; [exact D2|]. exact (sr_trans c R HR _ _ _ R1 R2).
  Qed.
End Isolation.
(** With no functions of its own, a contract's storage never changes: reading it is all that foreign code can do *)
Theorem C104_foreign_code_cannot_write L c fuel l s s' : honest_language L c -> ~ In (ch ":") c -> Forall (fee_elsewhere c) l -> history L fuel l s s' -> deployed_world L c (fun _ => False) s ->
  forall k, storage_of c k -> look s' k = look s k.
Proof.
  intros HL NC HF H D. refine (proj2 (C104_history L c (fun _ => False) (fun f g => forall k, storage_of c k -> g k = f k) _ HL _ fuel l s s' NC HF H D)).
  - constructor; [intros f g h H1 H2 k Hk; rewrite (H2 k Hk); auto|auto].
  - intros p fu chn [].
Qed.
