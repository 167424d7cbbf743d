(** * C93: the reads a transaction reports *)
From Verif Require Import Model.Base Model.State Model.Dec Model.Time Model.Value Model.Encoder Model.Hdf5 Model.Runtime Model.Driver Model.Orm Model.Exec Model.Executor.
From Verif Require Import Spec.OrmSpec Spec.ExecSpec Spec.ReadsSpec Proofs.BaseFacts Proofs.DriverFacts Proofs.OrmFacts Proofs.ExecFacts Proofs.ExecRel Proofs.MeterFacts Proofs.TxFacts Proofs.DrvRel Proofs.PhaseRel Properties.Demo Properties.RandProps.
From Coq Require Import Lia.

(** ** The relation between the drivers before and after *)
Record D (v v' : driver) : Prop := mkD {
  d_frame : dv_cache v' = dv_cache v /\ dv_disk v' = dv_disk v /\ dv_bypass v' = dv_bypass v;
  d_rec : forall k, dget k (dv_reads v') = dget k (dv_reads v) \/
    (is_none (pget k (dv_reads v)) = true /\ exists y, dget k (dv_reads v') = Some y /\ (find k v = Ok y \/ find k v = Ok VNone));
  d_find : forall k, find k v' = find k v \/ is_none (pget k (dv_reads v')) = false \/ find k v = Ok VNone }.
Lemma D_refl v : D v v.
Proof. constructor; [auto|intros k; left; reflexivity|intros k; left; reflexivity]. Qed.
Lemma rec_none (d d' : dict pyval) k : dget k d' = dget k d -> pget k d' = pget k d.
Proof. unfold pget. intros ->. reflexivity. Qed.
Lemma rec_keeps v v' k : D v v' -> is_none (pget k (dv_reads v)) = false -> is_none (pget k (dv_reads v')) = false.
Proof. intros H N. destruct (d_rec _ _ H k) as [E|(E & _)]; [rewrite (rec_none _ _ _ E); exact N|congruence]. Qed.
Lemma D_trans a b c : D a b -> D b c -> D a c.
Proof.
  intros H1 H2. constructor.
  - destruct (d_frame _ _ H1) as (A1 & A2 & A3). destruct (d_frame _ _ H2) as (B1 & B2 & B3). repeat split; congruence.
  - intros k. destruct (d_rec _ _ H2 k) as [E|(N & y & E & F)]; [rewrite E; apply H1|]. right.
    assert (NA : is_none (pget k (dv_reads a)) = true). { destruct (d_rec _ _ H1 k) as [E1|(N1 & _)]; [rewrite <- (rec_none _ _ _ E1); exact N|exact N1]. }
    split; [exact NA|]. exists y. split; [exact E|]. destruct (d_find _ _ H1 k) as [G|[G|G]]; [rewrite <- G; exact F|congruence|right; exact G].
  - intros k. destruct (d_find _ _ H1 k) as [G1|[G1|G1]]; [|right; left; eapply rec_keeps; eassumption|right; right; exact G1].
    destruct (d_find _ _ H2 k) as [G2|[G2|G2]]; [left; congruence|right; left; exact G2|right; right; congruence].
Qed.
Lemma D_reads x v : grown v x -> D v (set_reads x v).
Proof.
  intros H. constructor; [auto| |intros k; left; apply find_set_reads].
  intros k. destruct (H k) as [E|(N & y & F & E)]; [left; exact E|right; split; [exact N|exists y; auto]].
Qed.
Lemma D_same v v' : dv_cache v' = dv_cache v -> dv_disk v' = dv_disk v -> dv_bypass v' = dv_bypass v -> dv_reads v' = dv_reads v -> dv_writes v' = dv_writes v -> D v v'.
Proof.
  intros A B C E F. constructor; [auto|intros k; left; rewrite E; reflexivity|]. intros k; left. unfold find. rewrite A, B, C, F. reflexivity.
Qed.
Lemma present_later v v' k : D v v' -> dget k (dv_reads v) <> None -> dget k (dv_reads v') <> None.
Proof. intros H N. destruct (d_rec _ _ H k) as [E|(_ & y & E & _)]; rewrite E; [exact N|discriminate]. Qed.
Lemma get_rec k v x v' : get k v = (Ok x, v') -> dget k (dv_reads v') <> None /\ find k v = Ok x /\ (is_none (pget k (dv_reads v')) = false \/ x = VNone).
Proof.
  unfold get. destruct (find k v) as [y|e]; [|discriminate]. intros E. injection E as <- <-. destruct (is_none (pget k (dv_reads v))) eqn:N.
  - cbn [set_reads dv_reads]. unfold pget. rewrite dget_dset. destruct (str_eqb_spec k k) as [_|X]; [|contradiction]. split; [discriminate|]. split; [reflexivity|]. destruct y; auto.
  - split; [|auto]. unfold pget in N. destruct (dget k (dv_reads v)); [discriminate|]. discriminate N.
Qed.
Lemma set_body_D k x b v : D v (snd (set_body k x b v)) /\ (fst (set_body k x b v) = Ok tt -> dget k (dv_reads (snd (set_body k x b v))) <> None).
Proof.
  remember (set_body k x b v) as R eqn:ER. unfold set_body in ER. rewrite bind_eq in ER. cbn [gets] in ER. rewrite bind_eq in ER.
  assert (HG : exists v1, D v v1 /\ (exists r, v1 = set_reads r v) /\
      (((if is_none (pget k (dv_reads v)) then (get k;; ret tt) else ret tt) v = (Ok tt, v1) /\ dget k (dv_reads v1) <> None /\ (is_none (pget k (dv_reads v1)) = false \/ find k v = Ok VNone)) \/
       exists e, (if is_none (pget k (dv_reads v)) then (get k;; ret tt) else ret tt) v = (Err e, v1))).
  { destruct (is_none (pget k (dv_reads v))) eqn:N.
    - rewrite bind_eq. destruct (ro_get k v) as (r & Hr). pose proof (rg_get k v) as G. destruct (get k v) as [[y|e] v1] eqn:EG; cbn [snd] in Hr, G; subst v1.
      + exists (set_reads r v). split; [apply D_reads, G|]. split; [eexists; reflexivity|]. left. destruct (get_rec _ _ _ _ EG) as (P & F & Q). split; [reflexivity|]. split; [exact P|].
        destruct Q as [Q| ->]; auto.
      + exists (set_reads r v). split; [apply D_reads, G|]. split; [eexists; reflexivity|]. right. exists e. reflexivity.
    - exists v. split; [apply D_refl|]. split; [exists (dv_reads v); symmetry; apply set_reads_same|]. left. split; [reflexivity|]. split; [|left; exact N].
      unfold pget in N. destruct (dget k (dv_reads v)); discriminate. }
  destruct HG as (v1 & HD & (r & Hr) & [(E1 & P & Q)|(e & E1)]); rewrite E1 in ER; clear E1.
  2:{ subst R. cbn [fst snd]. split; [exact HD|discriminate]. }
  rewrite bind_eq in ER. cbn [lift] in ER. destruct (coerce x) as [y|e]; [|subst R; split; [exact HD|discriminate]].
  rewrite bind_eq in ER. unfold modify at 1 in ER.
  assert (HR : R = (Ok tt, set_txn (if b then dset k y (dv_txn v1) else dv_txn v1) (set_writes (dset k y (dv_writes v1)) v1))).
  { rewrite ER. destruct b; [reflexivity|]. cbn [ret]. destruct v1; reflexivity. }
  rewrite HR. cbn [fst snd]. split; [|intros _; exact P]. eapply D_trans; [exact HD|]. constructor; [auto|intros j; left; reflexivity|].
  intros j. destruct (str_eqb_spec j k) as [->|NE].
  - destruct Q as [Q|Q]; [right; left; exact Q|right; right]. subst v1. rewrite find_set_reads. exact Q.
  - left. unfold find. cbn [set_txn set_writes dv_bypass dv_writes dv_cache dv_disk]. unfold pget. rewrite dget_dset. destruct (str_eqb_spec j k) as [|_]; [contradiction|]. reflexivity.
Qed.
Lemma set_D k x b w : D (w_drv w) (w_drv (snd (set k x b w))) /\ (fst (set k x b w) = Ok tt -> dget k (dv_reads (w_drv (snd (set k x b w)))) <> None).
Proof.
  remember (set k x b w) as R eqn:ER. unfold set in ER. rewrite bind_eq in ER. cbn [lift] in ER. destruct (encode_kv_len k x) as [[kl vl]|e]; [|subst R; split; [apply D_refl|discriminate]].
  rewrite bind_eq in ER. unfold on_rt in ER. destruct (deduct_write kl vl (w_rt w)) as [[[]|e] r1]; [|subst R; split; [apply D_refl|discriminate]].
  unfold on_drv in ER. cbn [w_drv w_rt] in ER. pose proof (set_body_D k x b (w_drv w)) as H. destruct (set_body k x b (w_drv w)) as [y v1]. subst R. exact H.
Qed.

(** ** The relation between machines *)
Definition recorded (L : lang) (s : mach) (b : bool) (s' : mach) : Prop :=
  D (s_drv s) (s_drv s') /\ exists l, s_log s' = s_log s ++ l /\ forall o k, In o l -> accesses L o k -> dget k (dv_reads (s_drv s')) <> None.
Lemma recorded_refl L s b : recorded L s b s.
Proof. split; [apply D_refl|]. exists []. rewrite app_nil_r. split; [reflexivity|intros o k []]. Qed.
Lemma recorded_any L s b c s' : recorded L s b s' -> recorded L s c s'. Proof. exact (fun H => H). Qed.
Lemma recorded_trans L s b s1 s2 : recorded L s true s1 -> recorded L s1 b s2 -> recorded L s b s2.
Proof.
  intros [D1 (l1 & E1 & H1)] [D2 (l2 & E2 & H2)]. split; [eapply D_trans; eassumption|]. exists (l1 ++ l2). rewrite E2, E1, app_assoc. split; [reflexivity|].
  intros o k HI HA. apply in_app_or in HI as [HI|HI]; [|eapply H2; eassumption]. eapply present_later; [exact D2|]. eapply H1; eassumption.
Qed.
Lemma recorded_glue L s s1 b : glue s s1 -> recorded L s b s1.
Proof.
  intros [(x & HD) _ _ (l & HL & Hl) HG]. split.
  - rewrite HD in *. apply D_reads. exact HG.
  - exists l. split; [exact HL|]. intros o k HI HA. rewrite Forall_forall in Hl. specialize (Hl o HI). destruct o; cbn in *; contradiction.
Qed.
Lemma recorded_after L s b s1 s2 : recorded L s b s1 -> glue s1 s2 -> recorded L s b s2.
Proof. intros H G. eapply recorded_trans; [exact H|apply recorded_glue, G]. Qed.
Lemma recorded_line L e s b : recorded L s b (snd (line e s)).
Proof.
  split; [rewrite line_drv; apply D_refl|]. exists [OLine e]. split.
  - unfold line, on_w. destruct (on_rt (on_tracer (on_line e)) (s_w (note (OLine e) s))). reflexivity.
  - intros o k [<-|[]] [].
Qed.
Lemma recorded_lines L ls : forall s b, recorded L s b (snd (foreach line ls s)).
Proof.
  induction ls as [|e ls IH]; intros s b; [apply recorded_refl|]. cbn [foreach]. rewrite bind_eq. pose proof (recorded_line L e s true) as H.
  destruct (line e s) as [[x|x] s1]; cbn [snd] in *; [eapply recorded_trans; [exact H|apply IH]|exact H].
Qed.
Lemma recorded_guard L ls s b : recorded L s b (snd (guard ls s)).
Proof. unfold guard. pose proof (recorded_lines L ls s b) as H. destruct (foreach line ls s) as [[x|x] s1]; exact H. Qed.
Lemma act_D L a w : D (w_drv w) (w_drv (snd (do_act L a w))).
Proof.
  refine (do_act_gen L (fun _ _ => True) True True (fun w _ w' => D (w_drv w) (w_drv w')) _ _ _ _ _ _ _ a _ _ _ w); auto.
  - intros; apply D_refl.
  - intros x b y z A B. eapply D_trans; eassumption.
  - intros x r b H. apply D_reads, H.
  - intros k v b x _. apply set_D.
  - intros kl vl x. unfold on_rt. destruct (deduct_write kl vl (w_rt x)). apply D_refl.
  - intros _ e x. apply D_same; reflexivity.
  - intros _ x y b. apply D_refl.
  - destruct a; cbn [act_sets]; auto.
Qed.
Lemma act_present L a cs w v w' k : do_act L a w = (Ok v, w') -> accesses L (OAct cs a) k -> dget k (dv_reads (w_drv w')) <> None.
Proof.
  assert (HG : forall k w x w1, on_drv (get k) w = (Ok x, w1) -> dget k (dv_reads (w_drv w1)) <> None).
  { intros k0 w0 x w1. unfold on_drv. destruct (get k0 (w_drv w0)) as [r v1] eqn:E. intros H. injection H as -> <-. apply get_rec in E as (E & _). exact E. }
  assert (HS : forall k x b w w1, set k x b w = (Ok tt, w1) -> dget k (dv_reads (w_drv w1)) <> None).
  { intros k0 x b w0 w1 E. destruct (set_D k0 x b w0) as [_ H]. rewrite E in H. apply H. reflexivity. }
  destruct a as [x|x y|h j|h j y|h l|h l|e p d|salt|d|c n|c n y|nm code o now dev]; cbn [do_act accesses]; try contradiction; intros E.
  - intros ->. unfold var_get in E. rewrite bind_eq in E. destruct (on_drv (get (v_key x)) w) as [[r|e] w1] eqn:EG; [|discriminate E]. cbn [ret] in E. injection E as _ <-. eapply HG, EG.
  - intros ->. rewrite bind_eq in E. unfold var_set in E. rewrite bind_eq in E.
    destruct (match v_type x with Some t => if is_none y then ret tt else (let! b := lift (isinstance y t) in check b) | None => ret tt end w) as [[[]|e] w1]; [|discriminate E].
    destruct (set (v_key x) y true w1) as [[[]|e] w2] eqn:ES; [|discriminate E]. injection E as _ <-. eapply HS, ES.
  - intros (t & HV & ->). unfold hash_get in E. rewrite bind_eq in E. cbn [lift] in E. rewrite HV in E. rewrite bind_eq in E.
    destruct (on_drv (get (entry_key h t)) w) as [[r|e] w1] eqn:EG; [|discriminate E]. apply HG in EG.
    destruct (if is_none r then h_default h else r); try (injection E as _ <-; exact EG); rewrite bind_eq in E; cbn [lift] in E;
      match type of E with context [match ?c with Ok _ => _ | Err _ => _ end] => destruct c; [|discriminate E] end; injection E as _ <-; exact EG.
  - intros (t & HV & ->). rewrite bind_eq in E. unfold hash_set in E. rewrite bind_eq in E. cbn [lift] in E. rewrite HV in E.
    destruct (set (entry_key h t) y true w) as [[[]|e] w2] eqn:ES; [|discriminate E]. injection E as _ <-. eapply HS, ES.
  - intros ->. eapply HG, E.
  - intros ->. rewrite bind_eq in E. unfold set_var in E. destruct (set (make_key c n []) y false w) as [[[]|e] w2] eqn:ES; [|discriminate E]. injection E as _ <-. eapply HS, ES.
Qed.
Lemma recorded_act L a s b : recorded L s b (snd (act L a s)).
Proof.
  unfold act, on_w. pose proof (act_D L a (s_w s)) as HD. destruct (do_act L a (s_w s)) as [[v|e] w'] eqn:E; cbn [snd] in *.
  - split; [exact HD|]. exists [OAct (get_state (s_ctx s)) a]. split; [reflexivity|]. intros o k [<-|[]] HA. cbn. eapply act_present; eassumption.
  - split; [exact HD|]. exists []. rewrite app_nil_r. split; [reflexivity|intros o k []].
Qed.
Lemma fee_D L g t used writes s : t_auto t = false -> D (s_drv s) (s_drv (snd (charge_fee L g t used writes s))) /\
  (is_ok (fst (charge_fee L g t used writes s)) = true -> metered g t = true -> dget (balance_key g t) (dv_reads (s_drv (snd (charge_fee L g t used writes s)))) <> None) /\
  s_log (snd (charge_fee L g t used writes s)) = s_log s.
Proof.
  intros A. split; [|split; [|apply fee_same]]; unfold charge_fee; destruct (metered g t); try (intros; discriminate); try apply D_refl; rewrite bind_eq; cbn [lift];
    (destruct (if Z.eqb (t_rate t) 0 then Err EDivisionByZero else cd_of_float (l_fdiv L used (t_rate t))) as [fee|e]; [|solve [apply D_refl|discriminate]]);
    rewrite bind_eq; (pose proof (glue_read (get (balance_key g t)) s (ro_get _) (rg_get _)) as G; pose proof (recorded_glue L _ _ true G) as [GD _];
    destruct (on_w (on_drv (get (balance_key g t))) s) as [[bal|e] s1]; cbn [snd] in *; [|solve [exact GD|discriminate]]);
    rewrite bind_eq; cbn [lift]; (destruct (minus_fee bal fee) as [x|e]; [|solve [exact GD|discriminate]]);
    rewrite bind_eq; unfold on_w; pose proof (set_D (balance_key g t) (max0 x) false (s_w s1)) as [SD SP];
    (destruct (set (balance_key g t) (max0 x) false (s_w s1)) as [[[]|e] w2]; cbn [fst snd] in *; [|solve [exact (D_trans _ _ _ GD SD)|discriminate]]);
    rewrite bind_eq, A; cbn [ret snd fst]; [exact (D_trans _ _ _ GD SD)|intros _ _; apply SP; reflexivity].
Qed.

(** ** The property *)
(** up to the end of the contract code *)
Lemma phases_recorded L fuel g t s r s1 : t_auto t = false -> phases L fuel g t s r s1 -> recorded L s true s1.
Proof.
  intros A HP. set (Q := fun _ : prog => True).
  assert (HE : forall x b e, recorded L x b (upd_r (fun r => set_env e r) x)).
  { intros x b e. split; [apply D_refl|]. exists []. rewrite app_nil_r. split; [reflexivity|intros o k []]. }
  assert (HPr : forall x, recorded L x true (primed g t x)).
  { intros x. split; [apply D_refl|]. exists []. rewrite app_nil_r. split; [reflexivity|intros o k []]. }
  assert (HQ : forall args : dict pyval, exists k : pyval -> prog, Q (PCall (t_contract t) (t_function t) args k)) by (intros args; exists (fun _ => PRet VNone); exact I).
  pose proof (prepare_R L Q (recorded L) (recorded_refl L) (recorded_trans L) (fun s s1 b => recorded_glue L s s1 b) (recorded_after L)
    (fun a k s _ => recorded_act L a s _) (fun e k s _ => recorded_line L e s _) (fun ls ok k s _ => recorded_guard L ls s _) fuel g t HE HPr HQ s (all_code_any L s)) as [P1 P2].
  pose proof (call_R L Q (recorded L) (recorded_refl L) (recorded_trans L) (fun s s1 b => recorded_glue L s s1 b) (recorded_after L)
    (fun a k s _ => recorded_act L a s _) (fun e k s _ => recorded_line L e s _) (fun ls ok k s _ => recorded_guard L ls s _) fuel g t HE HPr HQ) as CR.
  assert (HC : forall kw sa, prepare L fuel g t s = (Ok kw, sa) -> recorded L s true (snd (entry_call L fuel t kw (primed g t sa)))).
  { intros kw sa Ea. rewrite Ea in P1. cbn [snd] in P1. eapply recorded_trans; [exact P1|]. eapply recorded_trans; [apply HPr|]. apply CR, all_code_any. }
  inversion HP as [e sa Ea X1|kw sa e sb Ea Eb X1|kw sa v sb e sc Ea Eb A' Ec X1|kw sa v sb sc Ea Eb Ec X1]; subst.
  - rewrite Ea in P1. exact P1.
  - specialize (HC _ _ Ea). rewrite Eb in HC. exact HC.
  - congruence.
  - specialize (HC _ _ Ea). rewrite Eb in HC. cbn [snd] in HC. destruct (auto_same t sb _ _ Ec) as (EL & _ & _ & _ & _ & HD). destruct HC as [C1 (l & C2 & C3)].
    split; [rewrite (HD A); exact C1|]. exists l. rewrite EL, (HD A). split; [exact C2|exact C3].
Qed.
Lemma restored_D t saved r v0 s1 : t_auto t = false -> D v0 (s_drv s1) -> dv_writes v0 = saved -> D v0 (s_drv (restore t saved r s1)).
Proof.
  intros A H W. destruct r as [x|e].
  - rewrite restore_drv_ok. eapply D_trans; [exact H|]. apply D_same; reflexivity.
  - rewrite (restore_drv_err t saved e s1 A). destruct (d_frame _ _ H) as (F1 & F2 & F3). constructor; [auto|apply H|].
    intros k. left. unfold find. cbn [set_txn set_events set_writes dv_bypass dv_writes dv_cache dv_disk]. rewrite F1, F2, F3, W. reflexivity.
Qed.
Lemma reads_began s : s_drv (began s) = set_events [] (set_txn [] (s_drv s)). Proof. reflexivity. Qed.
(** Without auto-commit: every key the transaction accessed is reported, the fee account too; what was reported before with a value stays;
    a new report is the value before the transaction, unless the key did not exist then. *)
Theorem C93_reads_partial L fuel g t s out s' : t_auto t = false -> execute L fuel g t s = (Ok out, s') ->
  (forall o k, In o (s_log s') -> accesses L o k -> dget k (o_reads out) <> None) /\
  (metered g t = true -> dget (balance_key g t) (o_reads out) <> None) /\
  (forall k, dget k (o_reads out) = dget k (dv_reads (s_drv s)) \/
     (pget k (dv_reads (s_drv s)) = VNone /\ exists y, dget k (o_reads out) = Some y /\ (reads_as s k = Ok y \/ reads_as s k = Ok VNone))).
Proof.
  intros A HE. apply execute_inv in HE as (_ & r & s1 & w & s3 & HP & _ & HF & -> & ->). cbn [o_reads].
  pose proof (phases_recorded _ _ _ _ _ _ _ A HP) as [HD (l & HL & HX)]. change (s_log (began s)) with (@nil obs) in HL. cbn [app] in HL.
  set (sr := restore t (dv_writes (s_drv s)) r s1) in *.
  assert (HR : D (s_drv (began s)) (s_drv sr)) by (apply restored_D; [exact A|exact HD|reflexivity]).
  pose proof (fee_D L g t (stamps_used t sr) (written r) sr A) as (F1 & F2 & F3). rewrite HF in F1, F2, F3. cbn [fst snd is_ok] in *.
  assert (HA : D (s_drv s) (s_drv s3)). { eapply D_trans; [|eapply D_trans; [exact HR|exact F1]]. rewrite reads_began. apply D_same; reflexivity. }
  assert (HLg : s_log sr = s_log s1) by apply (restore_same t). split; [|split].
  - intros o k HI HA1. assert (HI1 : In o l). { rewrite <- HL, <- HLg, <- F3. exact HI. }
    assert (P1 : dget k (dv_reads (s_drv s1)) <> None) by (eapply HX; eassumption).
    assert (P2 : dget k (dv_reads (s_drv sr)) <> None). { unfold sr. destruct r; [exact P1|]. rewrite (restore_drv_err t _ e s1 A). exact P1. }
    eapply present_later; [exact F1|exact P2].
  - intros M. apply F2; [reflexivity|exact M].
  - intros k. destruct (d_rec _ _ HA k) as [E|(N & y & E & F)]; [left; exact E|right]. split; [destruct (pget k (dv_reads (s_drv s))); try discriminate N; reflexivity|].
    exists y. split; [exact E|]. unfold reads_as. rewrite get_result. exact F.
Qed.
(** For the first transaction after a commit: the reported reads of keys that existed are exactly the values before it. *)
Theorem C93_first_partial L fuel g t s out s' k v : t_auto t = false -> dv_reads (s_drv s) = [] -> execute L fuel g t s = (Ok out, s') ->
  reads_as s k = Ok v -> v <> VNone ->
  (forall y, dget k (o_reads out) = Some y -> y = v) /\ (forall o, In o (s_log s') -> accesses L o k -> dget k (o_reads out) = Some v).
Proof.
  intros A HR HE HV HN. destruct (C93_reads_partial _ _ _ _ _ _ _ A HE) as (H1 & _ & H3).
  assert (H : forall y, dget k (o_reads out) = Some y -> y = v).
  { intros y Hy. destruct (H3 k) as [E|(_ & z & E & [F|F])]; [rewrite HR in E; cbn in E; congruence|congruence|congruence]. }
  split; [exact H|]. intros o HI HA. specialize (H1 o k HI HA). destruct (dget k (o_reads out)) as [y|]; [|contradiction]. f_equal. apply H. reflexivity.
Qed.

(** ** A small contract *)
Definition xvar : variable := var_decl (u "con_m") (u "x") None VNone.
Definition balh : hash := hash_decl (u "con_m") (u "h") VNone.
Definition reads_modul : modul := mkMod (PRet VNone) None
  [ (u "w", mkFunc (Some (u "con_m")) (fun _ => put "con_m" "x" (VInt 1) (PRet VNone)));
    (u "r", mkFunc (Some (u "con_m")) (fun _ => PAct (ActVarGet xvar) (fun v => PRet v)));
    (u "wr", mkFunc (Some (u "con_m")) (fun _ => put "con_m" "x" (VInt 5) (PAct (ActVarGet xvar) (fun v => PRet v))));
    (u "all", mkFunc (Some (u "con_m")) (fun _ => PAct (ActHashAll balh []) (fun v => PRet v))) ].
Definition reads_lang : lang := demo [(u "m", reads_modul)].
Definition reads_start (ws : dict pyval) : mach := idle_mach (deployed (u "con_m") (u "m") VNone ++ funded "bob" 100 ++ ws).
Definition x0 : dict pyval := [(u "con_m.x", VInt 0)].
Definition tx (fn : string) : txn := call_of "bob" "con_m" fn.
Definition auto_tx (fn : string) : txn := mkTx (u "bob") (u "con_m") (u fn) [] [] true 1000 20 (Some true).
Definition out_of (t : txn) (s : mach) : output := match fst (execute reads_lang 10 cfg0 t s) with Ok o => o | Err _ => mkOut 9 (Ok VNone) 0 [] [] [] end.
Lemma out_of_ok t s : o_status (out_of t s) = 0%Z -> fst (execute reads_lang 10 cfg0 t s) = Ok (out_of t s).
Proof. unfold out_of. destruct (fst (execute reads_lang 10 cfg0 t s)); [reflexivity|discriminate]. Qed.
Definition after_w : mach := snd (execute reads_lang 10 cfg0 (tx "w") (reads_start x0)).
(** A second transaction before the commit reports what the first one read: it read 1 and reports 0. *)
Theorem C93_stale_refuted : exists out, fst (execute reads_lang 10 cfg0 (tx "r") after_w) = Ok out /\ o_status out = 0%Z /\ o_result out = Ok (VInt 1) /\
  reads_as after_w (u "con_m.x") = Ok (VInt 1) /\ dget (u "con_m.x") (o_reads out) = Some (VInt 0).
Proof. exists (out_of (tx "r") after_w). split; [apply out_of_ok|]; vm_compute; repeat split. Qed.
(** A key the transaction creates is reported as read with the value the transaction gave it. *)
Theorem C93_created_refuted : exists out, fst (execute reads_lang 10 cfg0 (tx "wr") (reads_start [])) = Ok out /\ o_status out = 0%Z /\
  reads_as (reads_start []) (u "con_m.x") = Ok VNone /\ dget (u "con_m.x") (o_reads out) = Some (VInt 5).
Proof. exists (out_of (tx "wr") (reads_start [])). split; [apply out_of_ok|]; vm_compute; repeat split. Qed.
(** With auto-commit nothing is reported. *)
Theorem C93_auto_refuted : exists out, fst (execute reads_lang 10 cfg0 (auto_tx "r") (reads_start x0)) = Ok out /\ o_status out = 0%Z /\ o_result out = Ok (VInt 0) /\ o_reads out = [].
Proof. exists (out_of (auto_tx "r") (reads_start x0)). split; [apply out_of_ok|]; vm_compute; repeat split. Qed.
(** A listing is not reported. *)
Theorem C93_listing_refuted : exists out, fst (execute reads_lang 10 cfg0 (tx "all") (reads_start [(u "con_m.h:a", VInt 7)])) = Ok out /\ o_status out = 0%Z /\
  o_result out = Ok (VList [VInt 7]) /\ dget (u "con_m.h:a") (o_reads out) = None.
Proof. exists (out_of (tx "all") (reads_start [(u "con_m.h:a", VInt 7)])). split; [apply out_of_ok|]; vm_compute; repeat split. Qed.
Example C93_example : dv_reads (s_drv (reads_start x0)) = [] /\ reads_as (reads_start x0) (u "con_m.x") = Ok (VInt 0) /\
  o_status (out_of (tx "wr") (reads_start x0)) = 0%Z /\ dget (u "con_m.x") (o_reads (out_of (tx "wr") (reads_start x0))) = Some (VInt 0) /\
  existsb (fun o => match o with OAct _ (ActVarGet x) => str_eqb (v_key x) (u "con_m.x") | _ => false end) (s_log (snd (execute reads_lang 10 cfg0 (tx "wr") (reads_start x0)))) = true.
Proof. split; [reflexivity|]. vm_compute. repeat split. Qed.
