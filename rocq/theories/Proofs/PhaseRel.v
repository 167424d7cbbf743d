(** * Relations between the machines before and after a whole transaction *)
From Verif Require Import Model.Base Model.State Model.Dec Model.Time Model.Value Model.Encoder Model.Hdf5 Model.Runtime Model.Driver Model.Orm Model.Exec Model.Executor.
From Verif Require Import Spec.OrmSpec Spec.ExecSpec Proofs.BaseFacts Proofs.DriverFacts Proofs.OrmFacts Proofs.ExecFacts Proofs.ExecRel Proofs.MeterFacts Proofs.TxFacts Proofs.DrvRel.

(** what follows the contract code leaves the log and the generator alone *)
Definition same_log (s s' : mach) : Prop := s_log s' = s_log s /\ rt_seeded (s_rt s') = rt_seeded (s_rt s).
Lemma same_log_trans a b c : same_log a b -> same_log b c -> same_log a c.
Proof. intros [A B] [C D]. split; congruence. Qed.
Lemma read_same {A} (m : st driver A) s : same_log s (snd (on_w (on_drv m) s)).
Proof. unfold on_w, on_drv. destruct (m _). split; reflexivity. Qed.
Lemma set_same k v b s : same_log s (snd (on_w (set k v b) s)).
Proof.
  unfold on_w. assert (H : rt_seeded (w_rt (snd (set k v b (s_w s)))) = rt_seeded (w_rt (s_w s))); [|destruct (set k v b (s_w s)); split; [reflexivity|exact H]].
  remember (set k v b (s_w s)) as R eqn:ER. unfold set in ER. rewrite bind_eq in ER. unfold lift in ER.
  destruct (encode_kv_len k v) as [[kl vl]|e]; [|subst R; reflexivity]. rewrite bind_eq in ER. unfold on_rt in ER.
  assert (H : rt_seeded (snd (deduct_write kl vl (w_rt (s_w s)))) = rt_seeded (w_rt (s_w s))).
  { unfold deduct_write. destruct (tr_started _); [|reflexivity]. cbv zeta. destruct (Z.ltb _ _); [|reflexivity]. unfold on_tracer. destruct (add_cost _ _). reflexivity. }
  destruct (deduct_write kl vl (w_rt (s_w s))) as [[x|e] r1]; [|subst R; exact H].
  unfold on_drv in ER. destruct (set_body _ _ _ _) as [y v1]. subst R. exact H.
Qed.
Lemma fee_same L g t used w s : same_log s (snd (charge_fee L g t used w s)).
Proof.
  assert (R : forall s, same_log s s) by (split; reflexivity).
  unfold charge_fee. destruct (metered g t); [|apply R]. rewrite bind_eq. unfold lift at 1. destruct (if Z.eqb (t_rate t) 0 then Err EDivisionByZero else cd_of_float (l_fdiv L used (t_rate t))) as [fee|e]; [|apply R].
  rewrite bind_eq. pose proof (read_same (get (balance_key g t)) s) as H1. destruct (on_w (on_drv (get (balance_key g t))) s) as [[bal|e] s1]; cbn [snd] in *; [|exact H1].
  rewrite bind_eq. unfold lift at 1. destruct (minus_fee bal fee) as [x|e]; [|exact H1]. rewrite bind_eq.
  pose proof (set_same (balance_key g t) (max0 x) false s1) as H2. destruct (on_w (set (balance_key g t) (max0 x) false) s1) as [[[]|e] s2]; cbn [snd] in *; [|exact (same_log_trans _ _ _ H1 H2)].
  rewrite bind_eq. destruct (t_auto t).
  - pose proof (read_same commit s2) as H3. destruct (on_w (on_drv commit) s2) as [[[]|e] s3]; cbn [snd] in *; exact (same_log_trans _ _ _ H1 (same_log_trans _ _ _ H2 H3)).
  - exact (same_log_trans _ _ _ H1 H2).
Qed.
Section PhaseRel.
  Variables (L : lang) (Q : prog -> Prop) (Rel : mach -> bool -> mach -> Prop).
  Hypothesis R_refl : forall s b, Rel s b s.
  Hypothesis R_trans : forall s b s1 s2, Rel s true s1 -> Rel s1 b s2 -> Rel s b s2.
  Hypothesis R_glue : forall s s1 b, glue s s1 -> Rel s b s1.
  Hypothesis R_glue_after : forall s b s1 s2, Rel s b s1 -> glue s1 s2 -> Rel s b s2.
  Hypothesis R_act : forall a k s, Q (PAct a k) -> Rel s (is_ok (fst (act L a s))) (snd (act L a s)).
  Hypothesis R_line : forall e k s, Q (PLine e k) -> Rel s (is_ok (fst (line e s))) (snd (line e s)).
  Hypothesis R_guard : forall ls ok k s, Q (PGuard ls ok k) -> Rel s true (snd (guard ls s)).
  Variables (fuel : nat) (g : cfg) (t : txn).
  Hypothesis R_env : forall s b e, Rel s b (upd_r (fun r => set_env e r) s).
  Hypothesis R_primed : forall s, Rel s true (primed g t s).
  Hypothesis Q_entry : forall args, exists k, Q (PCall (t_contract t) (t_function t) args k).
  Ltac go thm := eapply thm with (Q := Q) (QM := module_all Q) (Rel := Rel);
    [ match goal with H : all_code _ _ _ |- _ => apply H end | match goal with H : all_code _ _ _ |- _ => apply H end
    | intros ? H; apply H | intros ??? H; apply H | intros ???? H; apply H
    | exact R_refl | exact R_trans | exact R_glue | exact R_glue_after | exact R_act | exact R_line | exact R_guard | .. ].
  Lemma prepare_R s : all_code Q L s -> Rel s (is_ok (fst (prepare L fuel g t s))) (snd (prepare L fuel g t s)) /\ all_code Q L (snd (prepare L fuel g t s)).
  Proof using All.
    intros HA. pose (P := fun (s : mach) (b : bool) (s' : mach) => all_code Q L s -> Rel s b s' /\ all_code Q L s').
    assert (H : P s (is_ok (fst (prepare L fuel g t s))) (snd (prepare L fuel g t s))); [|apply H, HA].
    apply prepare_rel; unfold P; clear HA P.
    - intros; split; [apply R_refl|assumption].
    - intros x b y z A1 A2 A3. destruct (A1 A3) as [B1 B2]. destruct (A2 B2) as [C1 C2]. split; [eapply R_trans; eassumption|assumption].
    - intros x y b G EM EH _ [H1 H2]. split; [apply R_glue; exact G|]. split; [exact H1|rewrite EM; exact H2].
    - intros x b e H. split; [apply R_env|exact H].
    - intros x HA. assert (H : Rel x (is_ok (fst (plain_import L (deeper L fuel) Lib [] (t_contract t) x))) (snd (plain_import L (deeper L fuel) Lib [] (t_contract t) x)) /\
        mods_all (module_all Q) (s_mods (snd (plain_import L (deeper L fuel) Lib [] (t_contract t) x)))) by (go import_rel; apply HA).
      split; [apply H|split; [apply HA|apply H]].
  Qed.
  Lemma call_R s kw : all_code Q L s -> Rel s (is_ok (fst (entry_call L fuel t kw s))) (snd (entry_call L fuel t kw s)).
  Proof using All.
    intros HA. unfold entry_call. destruct (Q_entry kw) as (k & HQ).
    assert (H : Rel s (is_ok (fst (call L (deeper L fuel) [] (t_contract t) (t_function t) kw s))) (snd (call L (deeper L fuel) [] (t_contract t) (t_function t) kw s)) /\ mods_all (module_all Q) (s_mods (snd (call L (deeper L fuel) [] (t_contract t) (t_function t) kw s)))).
    { go call_rel; [exact HQ|apply HA]. }
    apply H.
  Qed.
  (** the machine when the contract code ended *)
  Lemma phases_R s r s1 : all_code Q L s -> phases L fuel g t s r s1 -> exists b s2, Rel s b s2 /\ same_log s2 s1 /\ (is_ok r = true -> b = true).
  Proof using All.
    intros HA HP. destruct (prepare_R s HA) as [P1 P2]. destruct HP as [e s' EP|kw sa e s' EP EC|kw sa v sb e s' EP EC A EA|kw sa v sb s' EP EC EA]; rewrite EP in P1, P2; cbn [fst snd is_ok] in *.
    - exists false, s'. split; [exact P1|]. split; [split; reflexivity|discriminate].
    - pose proof (call_R (primed g t sa) kw P2) as H. rewrite EC in H. exists false, s'. split; [|split; [split; reflexivity|discriminate]].
      eapply R_trans; [exact P1|]. eapply R_trans; [apply R_primed|exact H].
    - pose proof (call_R (primed g t sa) kw P2) as H. rewrite EC in H. cbn [fst snd is_ok] in H. exists true, sb. split; [eapply R_trans; [exact P1|]; eapply R_trans; [apply R_primed|exact H]|].
      split; [|reflexivity]. assert (EA' : (if t_auto t then on_w (on_drv commit) else ret tt) (stopped sb) = (Err e, s')) by (rewrite A; exact EA). destruct (auto_same t sb _ _ EA') as (H1 & H2 & _). split; [exact H1|rewrite H2; reflexivity].
    - pose proof (call_R (primed g t sa) kw P2) as H. rewrite EC in H. cbn [fst snd is_ok] in H. exists true, sb. split; [eapply R_trans; [exact P1|]; eapply R_trans; [apply R_primed|exact H]|].
      split; [|reflexivity]. destruct (auto_same t sb _ _ EA) as (H1 & H2 & _). split; [exact H1|rewrite H2; reflexivity].
  Qed.
  Lemma execute_R s r s' : all_code Q L s -> execute L fuel g t s = (r, s') ->
    s' = began s \/ exists b s2, Rel (began s) b s2 /\ s_log s' = s_log s2 /\ (is_ok r = false -> rt_seeded (s_rt s') = rt_seeded (s_rt s2)) /\
      (match r with Ok out => o_status out = 0%Z -> b = true | Err _ => True end).
  Proof using All.
    intros HA HE. unfold execute in HE. fold (began s) in HE. change (upd_d (fun v => clear_events (clear_transaction_writes v)) (fresh_log s)) with (began s) in HE. destruct (refused g t); [left; injection HE as _ <-; reflexivity|]. right.
    unfold transact in HE. destruct (attempt L fuel g t (began s)) as [x s1] eqn:EA. apply attempt_phases in EA. assert (HB : all_code Q L (began s)) by exact HA.
    destruct (phases_R (began s) x s1 HB EA) as (b & s2 & H1 & [H2 H3] & H4). exists b, s2. split; [exact H1|].
    set (saved := dv_writes (s_drv (fresh_log s))) in HE.
    assert (HF : forall used w s0 out, same_log s1 s0 -> (match charge_fee L g t used w s0 with (Err e, y) => (Err e, y) | (Ok writes, y) => (@Ok output (out writes y), wind_up y) end) = (r, s') ->
      s_log s' = s_log s2 /\ (is_ok r = false -> rt_seeded (s_rt s') = rt_seeded (s_rt s2)) /\ (forall o, r = Ok o -> exists w' y, o = out w' y)).
    { intros used w s0 out [G1 G2] E. pose proof (fee_same L g t used w s0) as [G3 G4]. destruct (charge_fee L g t used w s0) as [[w'|e] y]; cbn [snd] in *; injection E as <- <-.
      - split; [cbn; congruence|]. split; [discriminate|]. intros o E. injection E as <-. eauto.
      - split; [congruence|]. split; [intros _; congruence|discriminate]. }
    destruct x as [[[v w] ev]|e].
    - destruct (HF _ _ (finally s1) _ (conj eq_refl eq_refl) HE) as (F1 & F2 & F3). split; [exact F1|]. split; [exact F2|]. destruct r; [intros _; apply H4; reflexivity|exact I].
    - assert (HR : e <> EBase -> s_log s' = s_log s2 /\ (is_ok r = false -> rt_seeded (s_rt s') = rt_seeded (s_rt s2)) /\ match r with Ok out => o_status out = 0%Z -> b = true | Err _ => True end).
      { intros NE. assert (HE' : (match charge_fee L g t (stamps_used t (finally (revert t saved s1))) [] (finally (revert t saved s1)) with (Err e, y) => (Err e, y) | (Ok writes, y) => (@Ok output ((fun writes y => mkOut 1 (Err e) (stamps_used t (finally (revert t saved s1))) writes (dv_reads (s_drv y)) []) writes y), wind_up y) end) = (r, s')) by (destruct e; try exact HE; exfalso; apply NE; reflexivity).
        destruct (HF _ _ (finally (revert t saved s1)) _ (conj eq_refl eq_refl) HE') as (F1 & F2 & F3). split; [exact F1|]. split; [exact F2|]. destruct r as [o|]; [|exact I]. destruct (F3 o eq_refl) as (w' & y & ->). cbn. discriminate. }
      destruct e; try (apply HR; discriminate). injection HE as <- <-. split; [exact H2|]. split; [intros _; exact H3|exact I].
  Qed.
End PhaseRel.
(** after every execution that ends normally the machine is idle *)
Lemma executed_idle L fuel g t s out s' : execute L fuel g t s = (Ok out, s') -> idle s'.
Proof. intros H. apply execute_inv in H as (_ & r & s1 & w & s3 & _ & _ & _ & -> & _). constructor; reflexivity. Qed.
