(** * Code that reaches no Python module *)
From Verif Require Import Model.Base Model.State Model.Dec Model.Time Model.Value Model.Encoder Model.Hdf5 Model.Runtime Model.Driver Model.Orm Model.Exec Model.Executor.
From Verif Require Import Spec.OrmSpec Spec.ExecSpec Proofs.BaseFacts Proofs.DriverFacts Proofs.OrmFacts Proofs.ExecFacts Proofs.ExecRel Proofs.TxFacts Proofs.CtxFacts.

Lemma act_flags L a s : s_restricted (snd (act L a s)) = s_restricted s /\ s_hosts (snd (act L a s)) = s_hosts s /\ exists l, s_log (snd (act L a s)) = s_log s ++ l /\ no_host_ran l.
Proof.
  unfold act, on_w. destruct (do_act L a (s_w s)) as [[v|e] w]; cbn.
  - split; [reflexivity|]. split; [reflexivity|]. eexists. split; [reflexivity|]. repeat constructor.
  - split; [reflexivity|]. split; [reflexivity|]. exists []. rewrite app_nil_r. split; [reflexivity|constructor].
Qed.
Lemma line_flags e s : s_restricted (snd (line e s)) = s_restricted s /\ s_hosts (snd (line e s)) = s_hosts s /\ exists l, s_log (snd (line e s)) = s_log s ++ l /\ no_host_ran l.
Proof.
  unfold line, on_w. destruct (on_rt _ _) as [r w]; cbn. split; [reflexivity|]. split; [reflexivity|]. eexists. split; [reflexivity|]. repeat constructor.
Qed.
(** nothing was reached: no Python module imported, none called, same import function *)
Record conf (s s' : mach) : Prop := mkConf {
  cf_res : s_restricted s' = s_restricted s; cf_hosts : s_hosts s = [] -> s_hosts s' = []; cf_log : exists l, s_log s' = s_log s ++ l /\ no_host_ran l }.
Lemma conf_refl s : conf s s.
Proof. constructor; auto. exists []. rewrite app_nil_r. split; [reflexivity|constructor]. Qed.
Lemma conf_trans a b c : conf a b -> conf b c -> conf a c.
Proof.
  intros [H1 H2 (l & H3 & H4)] [G1 G2 (l' & G3 & G4)]. constructor; [congruence|auto|].
  exists (l ++ l'). rewrite G3, H3, app_assoc. split; [reflexivity|apply Forall_app; auto].
Qed.
Lemma conf_same s s' : s_restricted s' = s_restricted s -> s_hosts s' = s_hosts s -> s_log s' = s_log s -> conf s s'.
Proof. intros H1 H2 H3. constructor; [exact H1|congruence|]. exists []. rewrite app_nil_r. split; [exact H3|constructor]. Qed.
Lemma conf_read {A} (m : st driver A) s : conf s (snd (on_w (on_drv m) s)).
Proof. unfold on_w, on_drv. destruct (m _). apply conf_same; reflexivity. Qed.
Lemma conf_note o s : match o with OHost _ _ => False | _ => True end -> conf s (note o s).
Proof. intros H. constructor; auto. exists [o]. split; [reflexivity|constructor; [exact H|constructor]]. Qed.
Lemma conf_act L a s : conf s (snd (act L a s)).
Proof. destruct (act_flags L a s) as (A & B & C). constructor; [exact A|congruence|exact C]. Qed.
Lemma conf_line e s : conf s (snd (line e s)).
Proof. destruct (line_flags e s) as (A & B & C). constructor; [exact A|congruence|exact C]. Qed.
Lemma conf_lines ls : forall s, conf s (snd (foreach line ls s)).
Proof.
  induction ls as [|e ls IH]; intros s; [apply conf_refl|]. cbn [foreach]. unfold bind. pose proof (conf_line e s) as H.
  destruct (line e s) as [[v|x] s1]; cbn [snd] in *; [|exact H]. eapply conf_trans; [exact H|apply IH].
Qed.
Lemma conf_guard ls s : conf s (snd (guard ls s)).
Proof. unfold guard. pose proof (conf_lines ls s) as H. destruct (foreach line ls s) as [[v|e] s1]; exact H. Qed.
Lemma conf_enter c s : conf s (snd (enter c s)).
Proof.
  unfold enter. rewrite bind_eq. cbn [gets]. destruct (context_changed (s_ctx s) c); [|apply conf_same; reflexivity].
  rewrite bind_eq. pose proof (conf_read (get_owner c) s) as H. destruct (on_w (on_drv (get_owner c)) s) as [[o|e] s1]; cbn [snd] in *; [|exact H].
  rewrite bind_eq. cbn [gets]. rewrite bind_eq. cbn [modify]. destruct (_ || _)%bool; cbn [ret raise snd]; (eapply conf_trans; [exact H|apply conf_same; reflexivity]).
Qed.

Section Confined.
  Variables (L : lang) (Q : prog -> Prop) (QM : modul -> Prop) (rq : bool).
  Hypothesis SYS : loaded_is_stdlib L.
  Hypothesis QM_interp : forall b md, l_interp L b = Ok md -> QM md.
  Hypothesis QM_init : forall md, QM md -> each Q (m_init md).
  Hypothesis QM_ctor : forall md f a, (exists n c x k, Q (PExec n c x k)) -> QM md -> m_ctor md = Some f -> each Q (f a).
  Hypothesis QM_func : forall md n f a c k, Q (PCall c n a k) -> QM md -> dget n (m_funcs md) = Some f -> each Q (f_body f a).
  Hypothesis QM_host : forall x md n f a c k, Q (PCall c n a k) -> l_host L x = Some md -> dget n (m_funcs md) = Some f -> each Q (f_body f a).
  Hypothesis Q_import : forall n k, Q (PImport Stmt n k) -> rq = true \/ (l_sysmod L n = false /\ l_host L n = None).
  (** what is assumed of the machine and kept by all code *)
  Record good (s : mach) : Prop := mkGood { gd_res : rq = true -> s_restricted s = true; gd_hosts : s_hosts s = []; gd_mods : mods_all QM (s_mods s) }.
  Definition cn (A : Type) (ch : list pystr) (m : st mach A) : Prop := forall s, good s -> conf s (snd (m s)) /\ mods_all QM (s_mods (snd (m s))).
  Lemma good_next s s' : good s -> conf s s' -> mods_all QM (s_mods s') -> good s'.
  Proof. intros [A B C] [H1 H2 _] HM. constructor; [intros R; rewrite H1; auto|auto|exact HM]. Qed.
  Lemma cn_bind A B ch (m : st mach A) (k : A -> st mach B) : cn A ch m -> (forall a, cn B ch (k a)) -> cn B ch (bind m k).
  Proof.
    intros Hm Hk s Hs. unfold bind. destruct (Hm s Hs) as [H1 M1]. destruct (m s) as [[a|e] s1]; cbn [snd] in *; [|split; assumption].
    destruct (Hk a s1 (good_next _ _ Hs H1 M1)) as [H2 M2]. split; [eapply conf_trans; eassumption|exact M2].
  Qed.
  Lemma cn_conf A ch (m : st mach A) : (forall s, conf s (snd (m s)) /\ s_mods (snd (m s)) = s_mods s) -> cn A ch m.
  Proof. intros H s Hs. destruct (H s) as [H1 H2]. split; [exact H1|rewrite H2; apply Hs]. Qed.
  Lemma cn_raise A ch e : cn A ch (raise e).
  Proof. apply cn_conf. intros s. split; [apply conf_refl|reflexivity]. Qed.
  Lemma cn_ret A ch (a : A) : cn A ch (ret a).
  Proof. apply cn_conf. intros s. split; [apply conf_refl|reflexivity]. Qed.
  Lemma cn_imported ch kd n : cn unit ch (imported kd n).
  Proof. apply cn_conf. intros s. split; [apply conf_note; exact I|reflexivity]. Qed.
  Lemma cn_read ch k : cn pyval ch (on_w (on_drv (get k))).
  Proof. apply cn_conf. intros s. split; [apply conf_read|apply on_w_mods]. Qed.
  Lemma cn_export ch c (m : st mach pyval) : cn pyval (c :: ch) m -> cn pyval ch (with_export ch c m).
  Proof.
    intros Hm s Hs. unfold with_export. pose proof (conf_enter c s) as H. destruct (enter_glue c s) as [_ HM].
    destruct (enter c s) as [[[]|e] s1]; cbn [snd] in *; [|split; [exact H|rewrite HM; apply Hs]].
    set (s2 := note _ s1). assert (C2 : conf s s2) by (eapply conf_trans; [exact H|apply conf_note; exact I]).
    assert (M2 : mods_all QM (s_mods s2)) by (unfold s2; cbn; rewrite HM; apply Hs).
    destruct (Hm s2 (good_next _ _ Hs C2 M2)) as [H3 M3]. destruct (m s2) as [r s3]. cbn [snd] in *. split; [|exact M3].
    eapply conf_trans; [exact C2|]. eapply conf_trans; [exact H3|apply conf_same; reflexivity].
  Qed.
  Lemma conf_fetch n s : conf s (snd (fetch L n s)) /\ s_mods (snd (fetch L n s)) = s_mods s /\ forall md, fst (fetch L n s) = Ok md -> QM md.
  Proof using QM_interp.
    unfold fetch. rewrite bind_eq. pose proof (conf_read (get_compiled n) s) as H. pose proof (on_w_mods (on_drv (get_compiled n)) s) as HM.
    destruct (on_w (on_drv (get_compiled n)) s) as [[x|e] s1]; cbn [fst snd] in *; [|split; [exact H | split; [exact HM | discriminate]]].
    rewrite bind_eq. cbn [lift].
    destruct (match x with VNone => Err EImport | VBytes b => Ok b | VStr s0 => fromhex s0 | _ => Err EType end) as [b|e]; cbn [fst snd]; [|split; [exact H | split; [exact HM | discriminate]]].
    split; [exact H | split; [exact HM |]]. intros md Hmd. eapply QM_interp; exact Hmd.
  Qed.
  Lemma cn_load fuel ch n : (forall md, QM md -> cn pyval (n :: ch) (deeper L fuel (n :: ch) (m_init md))) -> cn unit ch (load L (deeper L fuel) ch n).
  Proof using QM_interp.
    intros HI s Hs. unfold load. set (s0 := set_mods (dset n None (s_mods s)) s).
    assert (H0 : mods_all QM (s_mods s0)). { intros m md. unfold s0. cbn. rewrite dget_dset. destruct (str_eqb m n); [discriminate | apply Hs]. }
    assert (C0 : conf s s0) by (apply conf_same; reflexivity).
    assert (HF : forall r s1, (let! md := fetch L n in deeper L fuel (n :: ch) (m_init md);; ret md) s0 = (r, s1) ->
                 conf s s1 /\ mods_all QM (s_mods s1) /\ forall md, r = Ok md -> QM md).
    { intros r s1. rewrite bind_eq. destruct (conf_fetch n s0) as (G & M & HQ). destruct (fetch L n s0) as [[md|e] s2]; cbn [fst snd] in *.
      - specialize (HQ md eq_refl). assert (H2 : mods_all QM (s_mods s2)) by (rewrite M; exact H0). pose proof (conf_trans _ _ _ C0 G) as C2.
        rewrite bind_eq. destruct (HI md HQ s2 (good_next _ _ Hs C2 H2)) as [H3 M3].
        destruct (deeper L fuel (n :: ch) (m_init md) s2) as [[v|e] s3]; cbn [snd] in *; intros E; injection E as <- <-; (split; [exact (conf_trans _ _ _ C2 H3)|split; [exact M3|]]).
        + intros md' E. injection E as <-. exact HQ.
        + discriminate.
      - intros E; injection E as <- <-. split; [exact (conf_trans _ _ _ C0 G)|]. split; [rewrite M; exact H0|discriminate]. }
    destruct ((let! md := fetch L n in deeper L fuel (n :: ch) (m_init md);; ret md) s0) as [[md|e] s1]; cbn [fst snd]; destruct (HF _ _ eq_refl) as (A & B & C).
    - split; [eapply conf_trans; [exact A|]; apply conf_same; reflexivity|].
      intros m md'. cbn. rewrite dget_dset. destruct (str_eqb m n); [intros E; injection E as <-; apply C; reflexivity | apply B].
    - split; [eapply conf_trans; [exact A|]; apply conf_same; reflexivity|]. intros m md'. cbn. rewrite dget_ddel. destruct (str_eqb m n); [discriminate | apply B].
  Qed.
  (** Python's import of a name that is no loaded Python module, and is stored or no Python module at all *)
  Lemma cn_plain fuel kd ch n s : (forall md, QM md -> cn pyval (n :: ch) (deeper L fuel (n :: ch) (m_init md))) -> good s ->
    l_sysmod L n = false -> (l_host L n = None \/ fst (get_contract n (s_drv s)) <> Ok VNone) ->
    conf s (snd (plain_import L (deeper L fuel) kd ch n s)) /\ mods_all QM (s_mods (snd (plain_import L (deeper L fuel) kd ch n s))).
  Proof using QM_interp.
    intros HI Hs HS HH. unfold plain_import. rewrite bind_eq. cbn [gets]. destruct (dmem n (s_mods s)); [apply (cn_imported ch kd n s Hs)|]. rewrite HS.
    rewrite bind_eq. pose proof (conf_read (get_contract n) s) as HC. pose proof (on_w_mods (on_drv (get_contract n)) s) as HM.
    assert (EQ : fst (on_w (on_drv (get_contract n)) s) = fst (get_contract n (s_drv s))) by (unfold on_w, on_drv, s_drv; destruct (get_contract n _); reflexivity).
    destruct (on_w (on_drv (get_contract n)) s) as [[c|e] s1]; cbn [fst snd] in *; [|split; [exact HC|rewrite HM; apply Hs]].
    assert (G1 : good s1) by (eapply good_next; [exact Hs|exact HC|rewrite HM; apply Hs]).
    assert (HL : cn unit ch (load L (deeper L fuel) ch n;; imported kd n)) by (apply cn_bind; [apply cn_load; exact HI|intros _; apply cn_imported]).
    destruct (is_none c) eqn:EN; cbn [negb].
    - destruct c; try discriminate EN. destruct HH as [HH|HH]; [|contradiction HH; symmetry; exact EQ]. rewrite HH. cbn [raise snd]. split; [exact HC|apply G1].
    - destruct (HL s1 G1) as [H1 H2]. split; [eapply conf_trans; [exact HC|exact H1]|exact H2].
  Qed.
  Lemma cn_import fuel ch kind n k : Q (PImport kind n k) -> (forall md, QM md -> cn pyval (n :: ch) (deeper L fuel (n :: ch) (m_init md))) ->
    cn unit ch (import L (deeper L fuel) kind ch n).
  Proof using QM_interp SYS Q_import.
    intros HQ HI. assert (HL : cn unit ch (load L (deeper L fuel) ch n)) by (apply cn_load; exact HI). destruct kind.
    - intros s Hs. unfold import. rewrite bind_eq. cbn [gets]. destruct (s_restricted s) eqn:ER.
      + revert s Hs ER. enough (H : cn unit ch (restricted_import L (deeper L fuel) ch n)) by (intros; apply H; assumption).
        unfold restricted_import. intros s Hs. rewrite bind_eq. cbn [gets]. destruct (dmem n (s_mods s)); [apply (cn_imported ch Stmt n s Hs)|].
        destruct (l_sysmod L n); [apply (cn_raise unit ch EImport s Hs)|]. revert s Hs. apply (cn_bind _ _ ch); [apply cn_read|]. intros c.
        destruct (negb (is_none c)); [|apply cn_raise]. apply cn_bind; [exact HL|intros _; apply cn_imported].
      + destruct (Q_import _ _ HQ) as [R|[S1 S2]]; [rewrite (gd_res _ Hs R) in ER; discriminate ER|]. apply cn_plain; auto.
    - unfold import, lib_import. intros s Hs. rewrite bind_eq. unfold lift. destruct (assertr (l_name_ok L n)); [|split; [apply conf_refl|apply Hs]].
      rewrite bind_eq. destruct (assertr (l_islower L n)); [|split; [apply conf_refl|apply Hs]].
      rewrite bind_eq. destruct (l_stdlib L n) eqn:ES; [split; [apply conf_refl|apply Hs]|]. cbn [ret]. rewrite bind_eq. destruct (startswith n (u "_")); [split; [apply conf_refl|apply Hs]|]. cbn [ret].
      rewrite bind_eq. pose proof (conf_read (get_contract n) s) as HC. pose proof (on_w_mods (on_drv (get_contract n)) s) as HM.
      assert (EQ : match on_w (on_drv (get_contract n)) s with (Ok c, s1) => fst (get_contract n (s_drv s1)) = Ok c | _ => True end).
      { unfold on_w, on_drv, get_contract, get_var. destruct (ro_get (make_key n CODE_KEY []) (w_drv (s_w s))) as (x & HX). pose proof (get_result (make_key n CODE_KEY []) (w_drv (s_w s))) as HG.
        destruct (get (make_key n CODE_KEY []) (w_drv (s_w s))) as [[c|e] v1]; cbn [fst snd] in *; [|exact I]. subst v1. cbn [s_drv s_w set_w w_drv upd_drv]. rewrite get_result. symmetry. exact HG. }
      destruct (on_w (on_drv (get_contract n)) s) as [[c|e] s1]; cbn [snd] in *; [|split; [exact HC|rewrite HM; apply Hs]].
      assert (G1 : good s1) by (eapply good_next; [exact Hs|exact HC|rewrite HM; apply Hs]).
      destruct (is_none c) eqn:EN; cbn [raise snd]; [split; [exact HC|apply G1]|].
      destruct (cn_plain fuel Lib ch n s1 HI G1) as [H1 H2].
      + destruct (l_sysmod L n) eqn:EX; [|reflexivity]. rewrite (SYS _ EX) in ES. discriminate ES.
      + right. rewrite EQ. intros E. injection E as ->. discriminate EN.
      + split; [eapply conf_trans; [exact HC|exact H1]|exact H2].
  Qed.
  Definition vp (v : view) : Prop := vw_hosts v = [] /\ mods_all QM (vw_mods v).
  Ltac feed thm := eapply thm with (L := L) (Q := Q) (QM := QM) (T := fun _ => cn) (VP := vp);
    [ exact QM_interp | exact QM_host | exact QM_init | exact QM_ctor | exact QM_func
    | intros v H0; apply H0
    | intros lv A0 ch0 m0 H0; exact H0
    | intros lv; exact cn_ret
    | intros lv; exact cn_raise
    | intros lv; exact cn_bind
    | intros lv A0 B0 ch0 f0 k0 H0 s Hs; exact (H0 (view_of s) (conj (gd_hosts _ Hs) (gd_mods _ Hs)) s Hs)
    | intros lv; exact cn_read
    | intros lv ch0 a0 k0 _; apply cn_conf; intros s; split; [apply conf_act|apply act_mods]
    | intros lv ch0 e0 k0 _; apply cn_conf; intros s; split; [apply conf_line|apply line_mods]
    | intros lv ch0 l0 o0 k0 _; apply cn_conf; intros s; split; [apply conf_guard|apply guard_mods]
    | intros lv ch0 c0 m0 _ H0; apply cn_export; exact H0
    | intros fu0 ch0 kd0 n0 k0; apply cn_import
    | intros fu0 ch0 c0 fn0 ar0 k0 md0 f0 _ _ _ _ H0; exact H0
    | intros fu0 ch0 c0 fn0 ar0 k0 md0 f0 _ (v0 & [V1 V2] & V3); rewrite V1 in V3; discriminate V3
    | .. ].
  Theorem run_conf fuel ch p : each Q p -> cn pyval ch (run L fuel ch p).
  Proof using All. intros HP. feed C_run; exact HP. Qed.
  Theorem deeper_conf fuel ch p : each Q p -> cn pyval ch (deeper L fuel ch p).
  Proof using All. intros HP. feed C_deeper; exact HP. Qed.
  Theorem call_conf fuel ch c fn args k : Q (PCall c fn args k) -> cn pyval ch (call L (deeper L fuel) ch c fn args).
  Proof using All. intros HP. feed C_top_call; exact HP. Qed.
End Confined.
