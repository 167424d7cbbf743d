(** * Relations between the drivers before and after contract code *)
From Verif Require Import Model.Base Model.State Model.Dec Model.Time Model.Value Model.Encoder Model.Hdf5 Model.Runtime Model.Driver Model.Orm Model.Exec Model.Executor.
From Verif Require Import Spec.OrmSpec Spec.ExecSpec Proofs.BaseFacts Proofs.DriverFacts Proofs.OrmFacts Proofs.ExecFacts Proofs.ExecRel Proofs.MeterFacts Proofs.TxFacts.

(** every action of the code writes allowed keys only *)
Definition sets_only (L : lang) (PS : pystr -> bool -> Prop) (p : prog) : Prop := match p with PAct a _ => act_sets L PS a | _ => True end.
Definition all_code (Q : prog -> Prop) (L : lang) (s : mach) : Prop := lang_all (module_all Q) L /\ mods_all (module_all Q) (s_mods s).
Lemma all_sets_any L s : all_code (sets_only L (fun _ _ => True)) L s.
Proof.
  assert (HE : forall p, each (sets_only L (fun _ _ => True)) p).
  { induction p; cbn [each]; (split; [try exact I; cbn; try apply act_sets_any|]); auto; try exact I. }
  assert (HM : forall md, module_all (sets_only L (fun _ _ => True)) md) by (intros md; constructor; intros; apply HE).
  split; [split|]; intros; try apply HM. intros n md _. apply HM.
Qed.
Section DrvRel.
  Variables (L : lang) (PS : pystr -> bool -> Prop) (D : driver -> driver -> Prop).
  Hypothesis D_refl : forall v, D v v.
  Hypothesis D_trans : forall a b c, D a b -> D b c -> D a c.
  Hypothesis D_reads : forall x v, D v (set_reads x v).
  Hypothesis D_set : forall k x y b v, PS k b -> coerce x = Ok y -> (forall e, encode x <> Err e) -> D v (set_txn (if b then dset k y (dv_txn v) else dv_txn v) (set_writes (dset k y (dv_writes v)) v)).
  Hypothesis D_event : forall e v, D v (set_events (dv_events v ++ [e]) v).
  Definition MD (s : mach) (b : bool) (s' : mach) : Prop := D (s_drv s) (s_drv s').
  Lemma MD_glue s s' b : glue s s' -> MD s b s'.
  Proof using D_reads. intros [(x & H) _ _ _]. unfold MD. rewrite H. apply D_reads. Qed.
  Lemma MD_act a k s : sets_only L PS (PAct a k) -> MD s (is_ok (fst (act L a s))) (snd (act L a s)).
  Proof using All.
    intros HP. unfold MD. assert (H : D (w_drv (s_w s)) (w_drv (snd (do_act L a (s_w s))))).
    { apply (do_act_rel L PS True (fun w _ w' => D (w_drv w) (w_drv w'))); auto.
      - intros w b w1 w2 A B. eapply D_trans; eassumption.
      - intros w x b. apply D_reads.
      - intros k0 v b w HK. destruct (set_spec k0 v b w) as [(y & r & t & HC & HE & _ & H & Ht)|(e & r & _ & H)]; rewrite H; [|apply D_reads].
        eapply D_trans; [apply (D_reads r)|]. subst t. pose proof (D_set k0 v y b (set_reads r (w_drv w)) HK HC HE) as X. destruct (w_drv w); exact X.
      - intros kl vl w. unfold on_rt. destruct (deduct_write kl vl (w_rt w)). apply D_refl.
      - intros _ e w. apply D_event. }
    unfold act, on_w. destruct (do_act L a (s_w s)) as [[v|e] w']; exact H.
  Qed.
  Lemma line_drv e s : s_drv (snd (line e s)) = s_drv s.
  Proof. unfold line, on_w, on_rt. cbn [s_w note set_log]. destruct (on_tracer (on_line e) (w_rt (s_w s))). reflexivity. Qed.
  Lemma guard_drv ls : forall s, s_drv (snd (guard ls s)) = s_drv s.
  Proof.
    assert (H : forall s, s_drv (snd (foreach line ls s)) = s_drv s).
    { induction ls as [|e ls IH]; intros s; [reflexivity|]. cbn [foreach]. unfold bind. pose proof (line_drv e s) as H. destruct (line e s) as [[x|x] s1]; cbn [snd] in *; [rewrite IH|]; exact H. }
    intros s. unfold guard. specialize (H s). destruct (foreach line ls s) as [[x|x] s1]; exact H.
  Qed.
  Ltac go thm := eapply thm with (Q := sets_only L PS) (QM := module_all (sets_only L PS)) (Rel := MD);
    [ match goal with H : all_code _ _ _ |- _ => apply H end | match goal with H : all_code _ _ _ |- _ => apply H end
    | intros ? H; apply H | intros ??? H; apply H | intros ???? H; apply H
    | intros; apply D_refl | intros ???? H1 H2; eapply D_trans; eassumption | intros; apply MD_glue; assumption
    | intros ???? H1 H2; eapply D_trans; [exact H1|apply (MD_glue _ _ true H2)] | intros; eapply MD_act; eassumption
    | intros; unfold MD; rewrite line_drv; apply D_refl | intros; unfold MD; rewrite guard_drv; apply D_refl | .. ].
  Lemma run_D fuel ch p s : all_code (sets_only L PS) L s -> each (sets_only L PS) p ->
    D (s_drv s) (s_drv (snd (run L fuel ch p s))) /\ all_code (sets_only L PS) L (snd (run L fuel ch p s)).
  Proof using All. intros HA HP. assert (H : MD s (is_ok (fst (run L fuel ch p s))) (snd (run L fuel ch p s)) /\ mods_all (module_all (sets_only L PS)) (s_mods (snd (run L fuel ch p s)))) by (go run_rel; [exact HP|apply HA]).
    split; [apply H|split; [apply HA|apply H]]. Qed.
  Lemma call_D fuel ch c fn args s : all_code (sets_only L PS) L s ->
    D (s_drv s) (s_drv (snd (call L (deeper L fuel) ch c fn args s))) /\ all_code (sets_only L PS) L (snd (call L (deeper L fuel) ch c fn args s)).
  Proof using All.
    intros HA. assert (H : MD s (is_ok (fst (call L (deeper L fuel) ch c fn args s))) (snd (call L (deeper L fuel) ch c fn args s)) /\ mods_all (module_all (sets_only L PS)) (s_mods (snd (call L (deeper L fuel) ch c fn args s)))).
    { go call_rel; [|apply HA]. instantiate (1 := fun _ => PRet VNone). exact I. }
    split; [apply H|split; [apply HA|apply H]].
  Qed.
  Lemma import_D fuel kind ch n s : all_code (sets_only L PS) L s ->
    D (s_drv s) (s_drv (snd (plain_import L (deeper L fuel) kind ch n s))) /\ all_code (sets_only L PS) L (snd (plain_import L (deeper L fuel) kind ch n s)).
  Proof using All.
    intros HA. assert (H : MD s (is_ok (fst (plain_import L (deeper L fuel) kind ch n s))) (snd (plain_import L (deeper L fuel) kind ch n s)) /\ mods_all (module_all (sets_only L PS)) (s_mods (snd (plain_import L (deeper L fuel) kind ch n s)))) by (go import_rel; apply HA).
    split; [apply H|split; [apply HA|apply H]].
  Qed.
  Lemma prepare_D fuel g t s : all_code (sets_only L PS) L s ->
    D (s_drv s) (s_drv (snd (prepare L fuel g t s))) /\ all_code (sets_only L PS) L (snd (prepare L fuel g t s)).
  Proof using All.
    intros HA. pose (P := fun (s : mach) (b : bool) (s' : mach) => all_code (sets_only L PS) L s -> D (s_drv s) (s_drv s') /\ all_code (sets_only L PS) L s').
    assert (H : P s (is_ok (fst (prepare L fuel g t s))) (snd (prepare L fuel g t s))); [|apply H, HA].
    apply prepare_rel; unfold P; clear - D_refl D_trans D_reads D_set D_event.
    - intros; split; [apply D_refl|assumption].
    - intros x b y z A1 A2 A3. destruct (A1 A3) as [B1 B2]. destruct (A2 B2) as [C1 C2]. split; [eapply D_trans; eassumption|assumption].
    - intros x y b G EM EH _ [H1 H2]. split; [exact (MD_glue _ _ true G)|]. split; [exact H1|rewrite EM; exact H2].
    - intros x b e H. split; [apply D_refl|exact H].
    - intros x H. apply import_D, H.
  Qed.
  (** up to the end of the entry function *)
  Lemma phases_D fuel g t s r s' : all_code (sets_only L PS) L s -> phases L fuel g t s r s' -> t_auto t = false -> D (s_drv s) (s_drv s').
  Proof using All.
    intros HA HP A. inversion HP as [e sa Ea X1|kw sa e sb Ea Eb X1|kw sa v sb e sc Ea Eb A' Ec X1|kw sa v sb sc Ea Eb Ec X1]; subst.
    - pose proof (prepare_D fuel g t s HA) as [H _]. rewrite Ea in H. exact H.
    - pose proof (prepare_D fuel g t s HA) as [H HA1]. rewrite Ea in H, HA1. cbn [snd] in *.
      pose proof (call_D fuel [] (t_contract t) (t_function t) kw (primed g t sa) HA1) as [H2 _]. unfold entry_call in Eb. rewrite Eb in H2. exact (D_trans _ _ _ H H2).
    - congruence.
    - pose proof (prepare_D fuel g t s HA) as [H HA1]. rewrite Ea in H, HA1. cbn [snd] in *.
      pose proof (call_D fuel [] (t_contract t) (t_function t) kw (primed g t sa) HA1) as [H2 _]. unfold entry_call in Eb. rewrite Eb in H2. cbn [snd] in H2.
      destruct (auto_same t sb _ _ Ec) as (_ & _ & _ & _ & _ & HD). rewrite (HD A). exact (D_trans _ _ _ H H2).
  Qed.
End DrvRel.
