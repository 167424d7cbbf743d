(** * The call context *)
From Verif Require Import Model.Base Model.State Model.Dec Model.Time Model.Value Model.Encoder Model.Hdf5 Model.Runtime Model.Driver Model.Orm Model.Exec Model.Executor.
From Verif Require Import Spec.OrmSpec Spec.ExecSpec Proofs.BaseFacts Proofs.DriverFacts Proofs.OrmFacts Proofs.ExecFacts Proofs.ExecRel Proofs.MeterFacts Proofs.TxFacts.
From Coq Require Import Lia.
Local Open Scope nat_scope.

(** ** Actions and lines do not touch it *)
Lemma set_ctx_same k v b w : rt_ctx (w_rt (snd (set k v b w))) = rt_ctx (w_rt w).
Proof.
  remember (set k v b w) as R eqn:ER. unfold set in ER. rewrite bind_eq in ER. cbn [lift] in ER.
  destruct (encode_kv_len k v) as [[kl vl]|e]; [|subst R; reflexivity]. rewrite bind_eq in ER. unfold on_rt in ER.
  assert (H : rt_ctx (snd (deduct_write kl vl (w_rt w))) = rt_ctx (w_rt w)).
  { unfold deduct_write. destruct (tr_started _); [|reflexivity]. cbv zeta. destruct (Z.ltb _ _); [|reflexivity]. unfold on_tracer. destruct (add_cost _ _). reflexivity. }
  destruct (deduct_write kl vl (w_rt w)) as [[x|e] r1]; [|subst R; exact H].
  unfold on_drv in ER. destruct (set_body _ _ _ _) as [y v1]. subst R. exact H.
Qed.
Lemma do_act_ctx L a w : rt_ctx (w_rt (snd (do_act L a w))) = rt_ctx (w_rt w).
Proof.
  apply (do_act_rel L (fun _ _ => True) True (fun w _ w' => rt_ctx (w_rt w') = rt_ctx (w_rt w))); auto.
  - intros x b y z A B. congruence.
  - intros. apply set_ctx_same.
  - intros kl vl x. unfold on_rt, deduct_write. destruct (tr_started _); [|reflexivity]. cbv zeta. destruct (Z.ltb _ _); [|reflexivity]. unfold on_tracer. destruct (add_cost _ _). reflexivity.
  - apply act_sets_any.
Qed.
Definition no_body (o : obs) : Prop := match o with OBody _ _ _ _ => False | _ => True end.
(** the context is the same and no exported function has run *)
Definition quiet (s s' : mach) : Prop := s_ctx s' = s_ctx s /\ exists l, s_log s' = s_log s ++ l /\ Forall no_body l.
Lemma quiet_refl s : quiet s s.
Proof. split; [reflexivity|]. exists []. rewrite app_nil_r. split; [reflexivity|constructor]. Qed.
Lemma quiet_trans a b c : quiet a b -> quiet b c -> quiet a c.
Proof.
  intros [H1 (l & H2 & H3)] [G1 (l' & G2 & G3)]. split; [congruence|]. exists (l ++ l'). rewrite G2, H2, app_assoc. split; [reflexivity|]. apply Forall_app. auto.
Qed.
Lemma quiet_same s s' : s_ctx s' = s_ctx s -> s_log s' = s_log s -> quiet s s'.
Proof. intros A B. split; [exact A|]. exists []. rewrite app_nil_r. split; [exact B|constructor]. Qed.
Lemma quiet_note o s : no_body o -> quiet s (note o s).
Proof. intros H. split; [reflexivity|]. exists [o]. split; [reflexivity|]. repeat constructor. exact H. Qed.
Lemma act_quiet L a s : quiet s (snd (act L a s)).
Proof.
  unfold act, on_w. pose proof (do_act_ctx L a (s_w s)) as H. destruct (do_act L a (s_w s)) as [[v|e] w']; cbn [snd] in *.
  - eapply quiet_trans; [apply (quiet_same s (set_w w' s)); [exact H|reflexivity]|]. apply quiet_note. exact I.
  - apply quiet_same; [exact H|reflexivity].
Qed.
Lemma line_quiet e s : quiet s (snd (line e s)).
Proof.
  unfold line. eapply quiet_trans; [apply (quiet_note (OLine e)); exact I|]. unfold on_w, on_rt, on_tracer. cbn [s_w note set_log]. destruct (on_line e _). apply quiet_same; reflexivity.
Qed.
Lemma guard_quiet ls s : quiet s (snd (guard ls s)).
Proof.
  assert (H : forall s, quiet s (snd (foreach line ls s))).
  { induction ls as [|e ls IH]; intros x; cbn [foreach]; [apply quiet_refl|]. rewrite bind_eq. pose proof (line_quiet e x) as H. destruct (line e x) as [[v|y] x1]; cbn [snd] in *; [|exact H].
    eapply quiet_trans; [exact H|apply IH]. }
  unfold guard. specialize (H s). destruct (foreach line ls s) as [[v|e] s1]; exact H.
Qed.
Lemma read_quiet {A} (m : st driver A) s : quiet s (snd (on_w (on_drv m) s)).
Proof. unfold on_w, on_drv. destruct (m _). apply quiet_same; reflexivity. Qed.

(** ** Code that calls nothing *)
Definition qt (QM : modul -> Prop) (A : Type) (ch : list pystr) (m : st mach A) : Prop :=
  forall s, mods_all QM (s_mods s) -> quiet s (snd (m s)) /\ mods_all QM (s_mods (snd (m s))).
Section Quiet.
  Variables (L : lang) (QM : modul -> Prop).
  Hypothesis QM_interp : forall b md, l_interp L b = Ok md -> QM md.
  Hypothesis QM_init : forall md, QM md -> each calls_nothing (m_init md).
  Notation qt := (qt QM).
  Lemma qt_bind A B ch (m : st mach A) (k : A -> st mach B) : qt A ch m -> (forall a, qt B ch (k a)) -> qt B ch (bind m k).
  Proof.
    intros Hm Hk s Hs. unfold bind. specialize (Hm s Hs). destruct (m s) as [[a|e] s1]; cbn [snd] in *; [|exact Hm].
    destruct Hm as [H1 M1]. destruct (Hk a s1 M1) as [H2 M2]. split; [eapply quiet_trans; eassumption|exact M2].
  Qed.
  Lemma qt_quiet A ch (m : st mach A) : (forall s, quiet s (snd (m s)) /\ s_mods (snd (m s)) = s_mods s) -> qt A ch m.
  Proof. intros H s Hs. destruct (H s) as [H1 H2]. split; [exact H1|rewrite H2; exact Hs]. Qed.
  Lemma fetch_quiet n s : quiet s (snd (fetch L n s)) /\ s_mods (snd (fetch L n s)) = s_mods s /\ forall md, fst (fetch L n s) = Ok md -> QM md.
  Proof using QM_interp.
    unfold fetch. rewrite bind_eq. pose proof (read_quiet (get_compiled n) s) as H. pose proof (on_w_mods (on_drv (get_compiled n)) s) as HM.
    destruct (on_w (on_drv (get_compiled n)) s) as [[x|e] s1]; cbn [fst snd] in *; [|split; [exact H | split; [exact HM | discriminate]]].
    rewrite bind_eq. cbn [lift].
    destruct (match x with VNone => Err EImport | VBytes b => Ok b | VStr s0 => fromhex s0 | _ => Err EType end) as [b|e]; cbn [fst snd]; [|split; [exact H | split; [exact HM | discriminate]]].
    split; [exact H | split; [exact HM |]]. intros md Hmd. eapply QM_interp; exact Hmd.
  Qed.
  Lemma qt_load fuel ch n : (forall md, QM md -> qt pyval (n :: ch) (deeper L fuel (n :: ch) (m_init md))) -> qt unit ch (load L (deeper L fuel) ch n).
  Proof using QM_interp.
    intros HI s Hs. unfold load. set (s0 := set_mods (dset n None (s_mods s)) s).
    assert (H0 : mods_all QM (s_mods s0)). { intros m md. unfold s0. cbn. rewrite dget_dset. destruct (str_eqb m n); [discriminate | apply Hs]. }
    assert (HF : forall r s1, (let! md := fetch L n in deeper L fuel (n :: ch) (m_init md);; ret md) s0 = (r, s1) ->
                 quiet s s1 /\ mods_all QM (s_mods s1) /\ forall md, r = Ok md -> QM md).
    { intros r s1. rewrite bind_eq. destruct (fetch_quiet n s0) as (G & M & HQ). destruct (fetch L n s0) as [[md|e] s2]; cbn [fst snd] in *.
      - specialize (HQ md eq_refl). assert (H2 : mods_all QM (s_mods s2)) by (rewrite M; exact H0).
        rewrite bind_eq. destruct (HI md HQ s2 H2) as [H3 M3].
        destruct (deeper L fuel (n :: ch) (m_init md) s2) as [[v|e] s3]; cbn [snd] in *; intros E; injection E as <- <-; (split; [exact (quiet_trans _ _ _ G H3)|split; [exact M3|]]).
        + intros md' E. injection E as <-. exact HQ.
        + discriminate.
      - intros E; injection E as <- <-. split; [exact G|]. split; [rewrite M; exact H0|discriminate]. }
    destruct ((let! md := fetch L n in deeper L fuel (n :: ch) (m_init md);; ret md) s0) as [[md|e] s1]; cbn [fst snd]; destruct (HF _ _ eq_refl) as (A & B & C).
    - split; [eapply quiet_trans; [exact A|]; apply quiet_same; reflexivity|].
      intros m md'. cbn. rewrite dget_dset. destruct (str_eqb m n); [intros E; injection E as <-; apply C; reflexivity | apply B].
    - split; [eapply quiet_trans; [exact A|]; apply quiet_same; reflexivity|]. intros m md'. cbn. rewrite dget_ddel. destruct (str_eqb m n); [discriminate | apply B].
  Qed.
  Ltac feed thm := eapply thm with (L := L) (Q := calls_nothing) (QM := QM) (T := fun _ => qt);
    [ exact QM_interp | intros ? ? ? ? ? ? ? [] | exact QM_init | intros ? ? ? (? & ? & ? & ? & []) | intros ? ? ? ? ? ? []
    | intros lv A0 ch0 m0 H0; exact H0
    | intros lv A0 ch0 a0; apply qt_quiet; intros s; split; [apply quiet_refl|reflexivity]
    | intros lv A0 ch0 e0; apply qt_quiet; intros s; split; [apply quiet_refl|reflexivity]
    | intros lv; exact qt_bind
    | intros lv A0 B0 ch0 f0 k0 H0 s Hs; exact (H0 (view_of s) Hs s Hs)
    | intros lv ch0 k0; apply qt_quiet; intros s; split; [apply read_quiet|apply on_w_mods]
    | intros lv ch0 kd0 n0; apply qt_quiet; intros s; split; [apply quiet_note; exact I|reflexivity]
    | intros lv ch0 n0; apply qt_quiet; intros s; split; [apply quiet_same; reflexivity|reflexivity]
    | intros lv ch0 a0 k0 _; apply qt_quiet; intros s; split; [apply act_quiet|apply act_mods]
    | intros lv ch0 e0 k0 _; apply qt_quiet; intros s; split; [apply line_quiet|apply line_mods]
    | intros lv ch0 l0 o0 k0 _; apply qt_quiet; intros s; split; [apply guard_quiet|apply guard_mods]
    | intros lv ch0 c0 m0 [(? & ? & [])|(? & ? & ? & ? & ? & ? & ? & ? & ? & ? & [])]
    | exact qt_load
    | intros ? ? ? ? ? ? ? ? []
    | intros ? ? ? ? ? ? ? ? []
    | .. ].
  Theorem deeper_quiet fuel ch p : each calls_nothing p -> qt pyval ch (deeper L fuel ch p).
  Proof using All. intros HP. feed T_deeper; exact HP. Qed.
  Theorem import_quiet fuel kind ch n : qt unit ch (plain_import L (deeper L fuel) kind ch n).
  Proof using All. feed T_top_import. Qed.
  Theorem load_quiet fuel ch n : qt unit ch (load L (deeper L fuel) ch n).
  Proof using All. apply qt_load. intros md H. apply deeper_quiet. auto. Qed.
End Quiet.

(** ** Contract code *)
Definition stack_of (s : mach) : list (cstate * nat) := cx_stack (s_ctx s).
Definition popped (l : list (cstate * nat)) : list (cstate * nat) := cx_stack (pop_state (mkCtx l base0)).
(** after an exception: restored, or one level too many *)
Definition leaked (l l' : list (cstate * nat)) : Prop := l' = l \/ popped l' = l.
Section Ctx.
  Variables (L : lang) (sender entry fn : pystr) (B : cstate).
  Hypothesis HL : regular L.
  Hypothesis B_this : c_this B = Some entry.
  Hypothesis B_caller : c_caller B = Some sender.
  Hypothesis B_signer : c_signer B = Some sender.
  Hypothesis B_entry : c_entry B = Some (entry, fn).
  Definition current (ch : list pystr) : pystr := hd entry ch.
  Definition caller_in (ch : list pystr) : pystr := match ch with [] => sender | c :: r => expected_caller sender entry c r end.
  Record matches (ch : list pystr) (c : context) : Prop := mkMatches {
    mt_base : cx_base c = B; mt_this : c_this (get_state c) = Some (current ch); mt_caller : c_caller (get_state c) = Some (caller_in ch);
    mt_signer : c_signer (get_state c) = Some sender; mt_entry : c_entry (get_state c) = Some (entry, fn);
    mt_depth : match cx_stack c with (_, O) :: _ => False | _ => True end }.
  Definition right (s : mach) (ok : bool) (s' : mach) : Prop :=
    (ok = true -> s_ctx s' = s_ctx s) /\ cx_base (s_ctx s') = cx_base (s_ctx s) /\ leaked (stack_of s) (stack_of s') /\
    exists l, s_log s' = s_log s ++ l /\ Forall (body_right sender entry fn) l.
  Definition ct (n : nat) (A : Type) (ch : list pystr) (m : st mach A) : Prop := forall s,
    mods_all decorated (s_mods s) -> matches ch (s_ctx s) -> List.length (stack_of s) + n <= RECURSION_LIMIT ->
    right s (is_ok (fst (m s))) (snd (m s)) /\ mods_all decorated (s_mods (snd (m s))).
  Lemma quiet_right s b s' : quiet s s' -> right s b s'.
  Proof.
    intros [H (l & H1 & H2)]. split; [auto|]. split; [congruence|]. split; [left; unfold stack_of; congruence|]. exists l. split; [exact H1|].
    eapply Forall_impl; [|exact H2]. intros [| | | |] Ho; try exact I; contradiction.
  Qed.
  Lemma ct_quiet n A ch (m : st mach A) : qt decorated A ch m -> ct n A ch m.
  Proof. intros H s Hs _ _. destruct (H s Hs) as [H1 H2]. split; [apply quiet_right, H1|exact H2]. Qed.
  Lemma ct_quiet' n A ch (m : st mach A) : (forall s, quiet s (snd (m s)) /\ s_mods (snd (m s)) = s_mods s) -> ct n A ch m.
  Proof. intros H. apply ct_quiet. apply (qt_quiet decorated). exact H. Qed.
  Lemma ct_bind n A C ch (m : st mach A) (k : A -> st mach C) : ct n A ch m -> (forall a, ct n C ch (k a)) -> ct n C ch (bind m k).
  Proof.
    intros Hm Hk s Hs HM HD. unfold bind. specialize (Hm s Hs HM HD). destruct (m s) as [[a|e] s1]; cbn [fst snd is_ok] in *; [|exact Hm].
    destruct Hm as [(H1 & H2 & H3 & l & H4 & H5) M1]. specialize (H1 eq_refl).
    destruct (Hk a s1 M1) as [(G1 & G2 & G3 & l' & G4 & G5) M2]; [rewrite H1; exact HM|unfold stack_of; rewrite H1; exact HD|].
    split; [|exact M2]. split; [intros E; rewrite (G1 E); exact H1|]. split; [congruence|]. split; [unfold stack_of in *; rewrite H1 in G3; exact G3|].
    exists (l ++ l'). rewrite G4, H4, app_assoc. split; [reflexivity|]. apply Forall_app. auto.
  Qed.
  Lemma ostr_refl a : ostr_eqb (Some a) (Some a) = true. Proof. cbn. apply str_eqb_refl. Qed.
  Lemma owner_reads c x v : fst (get_owner c (set_reads x v)) = fst (get_owner c v).
  Proof.
    unfold get_owner. rewrite !bind_eq. unfold get_var. pose proof (get_result (make_key c OWNER_KEY []) v) as H1. pose proof (get_result (make_key c OWNER_KEY []) (set_reads x v)) as H2.
    assert (HF : find (make_key c OWNER_KEY []) (set_reads x v) = find (make_key c OWNER_KEY []) v) by reflexivity. rewrite HF, <- H1 in H2.
    destruct (get (make_key c OWNER_KEY []) v) as [[a|e] v1]; destruct (get (make_key c OWNER_KEY []) (set_reads x v)) as [[b|e'] v2]; cbn [fst] in H2; try discriminate H2; injection H2 as ->; reflexivity.
  Qed.
  (** entering: the context for the body, or the exception *)
  Lemma enter_right ch c s : matches ch (s_ctx s) -> List.length (stack_of s) < RECURSION_LIMIT ->
    s_mods (snd (enter c s)) = s_mods s /\ s_log (snd (enter c s)) = s_log s /\ cx_base (s_ctx (snd (enter c s))) = cx_base (s_ctx s) /\
    match fst (enter c s) with
    | Err _ => leaked (stack_of s) (stack_of (snd (enter c s)))
    | Ok _ => matches (c :: ch) (s_ctx (snd (enter c s))) /\ body_right sender entry fn (OBody ch c (get_state (s_ctx (snd (enter c s)))) (s_drv (snd (enter c s)))) /\
        List.length (stack_of (snd (enter c s))) <= S (List.length (stack_of s)) /\
        popped (stack_of (snd (enter c s))) = stack_of s
    end.
  Proof using B_this B_caller B_signer B_entry.
    intros HM HD. destruct HM as [M1 M2 M3 M4 M5 M6]. unfold enter. rewrite bind_eq. cbn [gets].
    unfold context_changed. rewrite M2. cbn [ostr_eqb]. destruct (str_eqb_spec (current ch) c) as [Hc|Hc]; cbn [negb].
    - (* same contract *)
      cbn [modify fst snd]. split; [reflexivity|]. split; [reflexivity|]. split; [unfold upd_ctx, s_ctx, s_rt, upd_rt, ins_state; cbn; destruct (cx_stack (rt_ctx (w_rt (s_w s)))) as [|[]]; reflexivity|].
      assert (EC : s_ctx (upd_ctx ins_state s) = ins_state (s_ctx s)) by reflexivity. rewrite EC. change (s_drv (upd_ctx ins_state s)) with (s_drv s).
      assert (GS : get_state (ins_state (s_ctx s)) = get_state (s_ctx s)) by (unfold ins_state, get_state; destruct (cx_stack (s_ctx s)) as [|[]] eqn:E; rewrite ?E; reflexivity).
      assert (EX : caller_in ch = expected_caller sender entry c ch).
      { subst c. destruct ch as [|x r]; cbn; [rewrite str_eqb_refl|rewrite str_eqb_refl]; reflexivity. }
      split; [|split; [|split]].
      + constructor; rewrite ?GS.
        * unfold ins_state. destruct (cx_stack (s_ctx s)) as [|[]]; exact M1.
        * cbn. rewrite M2, Hc. reflexivity.
        * cbn. rewrite M3, EX. reflexivity.
        * exact M4.
        * exact M5.
        * unfold ins_state. destruct (cx_stack (s_ctx s)) as [|[a d]] eqn:E; [rewrite E; exact I|exact I].
      + cbn [body_right]. rewrite GS. split; [rewrite M2, Hc; reflexivity|]. split; [rewrite M3, EX; reflexivity|]. split; [exact M4|]. split; [exact M5|]. intros X. exfalso. apply X. exact Hc.
      + unfold stack_of. rewrite EC. unfold ins_state. destruct (cx_stack (s_ctx s)) as [|[a d]] eqn:E; rewrite ?E; cbn; lia.
      + unfold stack_of. rewrite EC. unfold ins_state. destruct (cx_stack (s_ctx s)) as [|[a d]] eqn:E; rewrite ?E; cbn; [reflexivity|].
        unfold popped. cbn. destruct d as [|d]; [contradiction|]. reflexivity.
    - (* another contract *)
      rewrite bind_eq. unfold on_w, on_drv. pose proof (ro_owner c (w_drv (s_w s))) as (x & HX). pose proof (owner_reads c x (w_drv (s_w s))) as HO.
      destruct (get_owner c (w_drv (s_w s))) as [[o|e] v1] eqn:EO; cbn [fst snd] in *; subst v1.
      2:{ split; [reflexivity|]. split; [reflexivity|]. split; [reflexivity|]. left. reflexivity. }
      set (s1 := set_w (mkW (set_reads x (w_drv (s_w s))) (w_rt (s_w s))) s).
      rewrite bind_eq. cbn [gets]. rewrite bind_eq. cbn [modify].
      assert (C1 : s_ctx s1 = s_ctx s) by reflexivity. rewrite C1. set (cs := mkCs _ _ _ _ _ _).
      assert (EA : add_state RECURSION_LIMIT cs (s_ctx s) = mkCtx ((cs, 1) :: cx_stack (s_ctx s)) (cx_base (s_ctx s))).
      { unfold add_state, context_changed. cbn [c_this cs]. rewrite M2. cbn [ostr_eqb]. destruct (str_eqb_spec (current ch) c); [contradiction|]. cbn [negb andb].
        fold (stack_of s). destruct (Nat.ltb_spec (List.length (stack_of s)) RECURSION_LIMIT); [reflexivity|lia]. }
      set (s2 := upd_ctx (add_state RECURSION_LIMIT cs) s1). assert (C2 : s_ctx s2 = mkCtx ((cs, 1) :: cx_stack (s_ctx s)) (cx_base (s_ctx s))).
      { rewrite <- EA. reflexivity. }
      assert (PS : popped (stack_of s2) = stack_of s) by (unfold stack_of; rewrite C2; reflexivity).
      assert (HB : cx_base (s_ctx s2) = cx_base (s_ctx s)) by (rewrite C2; reflexivity).
      destruct (is_none o || is_owner o (c_this (get_state (s_ctx s))))%bool eqn:EI; cbn [ret raise fst snd].
      2:{ split; [reflexivity|]. split; [reflexivity|]. split; [exact HB|]. right. exact PS. }
      split; [reflexivity|]. split; [reflexivity|]. split; [exact HB|].
      assert (GS : get_state (s_ctx s2) = cs) by (rewrite C2; reflexivity).
      assert (EX : expected_caller sender entry c ch = current ch).
      { destruct ch as [|y r]; cbn in *; [destruct (str_eqb_spec c entry); [congruence|reflexivity]|]. destruct (str_eqb_spec y c); [congruence|reflexivity]. }
      split; [|split; [|split]].
      + constructor; rewrite ?GS; cbn [cs c_this c_caller c_signer c_entry].
        * rewrite HB. exact M1.
        * reflexivity.
        * rewrite M2. cbn. rewrite EX. reflexivity.
        * exact M4.
        * exact M5.
        * rewrite C2. exact I.
      + cbn [body_right]. rewrite GS. cbn [cs c_this c_caller c_signer c_entry]. split; [reflexivity|]. split; [rewrite M2, EX; reflexivity|]. split; [exact M4|]. split; [exact M5|].
        intros _. exists o. split; [exact HO|]. fold (current ch). rewrite M2 in EI. apply Bool.orb_true_iff in EI as [EI|EI]; [left; destruct o; try discriminate; reflexivity|].
        right. destruct o; cbn in EI; try discriminate. destruct (str_eqb_spec s0 (current ch)); [subst; reflexivity|discriminate].
      + unfold stack_of. rewrite C2. cbn. lia.
      + exact PS.
  Qed.
  Lemma leaked_popped l l' : leaked l l' -> leaked (popped l) (popped l').
  Proof.
    intros [->|H]; [left; reflexivity|]. right. rewrite H. reflexivity.
  Qed.
  Lemma pop_eq c : pop_state c = mkCtx (popped (cx_stack c)) (cx_base c).
  Proof. destruct c as [[|[a d] r] b]; [reflexivity|]. unfold popped, pop_state. cbn. destruct (Nat.eqb (d - 1) 0); reflexivity. Qed.
  Lemma ct_export n ch c (m : st mach pyval) : ct n pyval (c :: ch) m -> ct (S n) pyval ch (with_export ch c m).
  Proof using B_this B_caller B_signer B_entry.
    intros Hm s Hs HM HD. unfold with_export. assert (HD' : List.length (stack_of s) < RECURSION_LIMIT) by lia.
    destruct (enter_right ch c s HM HD') as (E1 & E2 & E3 & E4). destruct (enter c s) as [[[]|e] s1]; cbn [fst snd] in *.
    2:{ split; [|rewrite E1; exact Hs]. split; [discriminate|]. split; [exact E3|]. split; [exact E4|]. exists []. rewrite app_nil_r. split; [exact E2|constructor]. }
    destruct E4 as (K1 & K2 & K3 & K4). set (s2 := note _ s1).
    destruct (Hm s2) as [(H1 & H2 & H3 & l & H4 & H5) M2]; [unfold s2; cbn; rewrite E1; exact Hs|exact K1|change (stack_of s2) with (stack_of s1); lia|].
    destruct (m s2) as [r s3]. cbn [fst snd] in *. split; [|exact M2].
    assert (EC : s_ctx (upd_ctx pop_state s3) = mkCtx (popped (stack_of s3)) (cx_base (s_ctx s3))) by exact (pop_eq (s_ctx s3)).
    assert (B3 : cx_base (s_ctx s3) = cx_base (s_ctx s)) by (rewrite H2; exact E3).
    split; [|split; [|split]].
    - intros Hr. rewrite EC. specialize (H1 Hr). unfold stack_of at 1. rewrite H1. change (cx_stack (s_ctx s2)) with (stack_of s1). rewrite K4. change (cx_base (s_ctx s2)) with (cx_base (s_ctx s1)). rewrite E3.
      unfold stack_of. destruct (s_ctx s); reflexivity.
    - rewrite EC. exact B3.
    - unfold stack_of at 2. rewrite EC. cbn [cx_stack]. rewrite <- K4. apply leaked_popped. exact H3.
    - exists (OBody ch c (get_state (s_ctx s1)) (s_drv s1) :: l). change (s_log (upd_ctx pop_state s3)) with (s_log s3). rewrite H4. unfold s2. cbn [s_log note set_log]. rewrite E2, <- app_assoc.
      split; [reflexivity|]. constructor; [exact K2|exact H5].
  Qed.
  Lemma nothing_public p : each calls_nothing p -> each public_calls p.
  Proof. apply each_imp. intros [] H; try exact I. contradiction. Qed.
  Ltac feed thm := eapply thm with (L := L) (Q := public_calls) (QM := decorated) (T := ct);
    [ exact (rg_interp _ HL) | intros x0 md0 n0 f0 a0 c0 k0 _ H1 H2; apply nothing_public; exact (rg_host _ HL _ _ _ _ _ H1 H2)
    | intros md0 H0; apply (de_all _ H0) | intros md0 f0 a0 _ H0; apply (de_all _ H0) | intros md0 n0 f0 a0 c0 k0 _ H0; apply (de_all _ H0)
    | intros lv A0 ch0 m0 H0 s0 Hs0 HM0 HD0; apply H0; [exact Hs0|exact HM0|lia]
    | intros lv A0 ch0 a0; apply ct_quiet'; intros s; split; [apply quiet_refl|reflexivity]
    | intros lv A0 ch0 e0; apply ct_quiet'; intros s; split; [apply quiet_refl|reflexivity]
    | exact ct_bind
    | intros lv A0 B0 ch0 f0 k0 H0 s Hs; exact (H0 (view_of s) Hs s Hs)
    | intros lv ch0 k0; apply ct_quiet'; intros s; split; [apply read_quiet|apply on_w_mods]
    | intros lv ch0 kd0 n0; apply ct_quiet'; intros s; split; [apply quiet_note; exact I|reflexivity]
    | intros lv ch0 n0; apply ct_quiet'; intros s; split; [apply quiet_same; reflexivity|reflexivity]
    | intros lv ch0 a0 k0 _; apply ct_quiet'; intros s; split; [apply act_quiet|apply act_mods]
    | intros lv ch0 e0 k0 _; apply ct_quiet'; intros s; split; [apply line_quiet|apply line_mods]
    | intros lv ch0 l0 o0 k0 _; apply ct_quiet'; intros s; split; [apply guard_quiet|apply guard_mods]
    | intros lv ch0 c0 m0 _; apply ct_export
    | intros fu0 ch0 n0 _; apply ct_quiet; apply (load_quiet L decorated (rg_interp _ HL) (fun md H => de_init _ H))
    | intros fu0 ch0 c0 fn0 ar0 k0 md0 f0 HQ HM Hf HE _; exfalso; exact (de_export _ HM _ _ Hf HQ HE)
    | intros fu0 ch0 c0 fn0 ar0 k0 md0 f0 _ Hh Hf _; apply ct_quiet; apply (qt_bind decorated);
      [apply (qt_quiet decorated); intros s; split; [apply quiet_note; exact I|reflexivity]
      | intros _ s0 Hs0; exact (deeper_quiet L decorated (rg_interp _ HL) (fun md H => de_init _ H) fu0 (c0 :: ch0) _ (rg_host _ HL _ _ _ _ _ Hh Hf) s0 Hs0)]
    | .. ].
  Theorem run_ctx fuel ch p : each public_calls p -> ct (S fuel) pyval ch (run L fuel ch p).
  Proof using All. intros HP. feed T_run; exact HP. Qed.
  Theorem deeper_ctx fuel ch p : each public_calls p -> ct fuel pyval ch (deeper L fuel ch p).
  Proof using All. intros HP. feed T_deeper; exact HP. Qed.
  Theorem call_ctx fuel ch c f args : startswith f (u "__") = false -> ct (S fuel) pyval ch (call L (deeper L fuel) ch c f args).
  Proof using All. intros HP. feed T_top_call; instantiate (1 := fun _ => PRet VNone); exact HP. Qed.
End Ctx.

(** ** Restoring the context, for all code *)
(** the innermost frame counts its calls *)
Definition top_ok (c : context) : Prop := match cx_stack c with (_, O) :: _ => False | _ => True end.
Definition back (n : nat) (A : Type) (ch : list pystr) (m : st mach A) : Prop := forall s,
  top_ok (s_ctx s) -> List.length (stack_of s) + n <= RECURSION_LIMIT ->
  cx_base (s_ctx (snd (m s))) = cx_base (s_ctx s) /\ leaked (stack_of s) (stack_of (snd (m s))) /\
  (fst (m s) <> Err EException -> s_ctx (snd (m s)) = s_ctx s).
Lemma back_same n A ch (m : st mach A) : (forall s, s_ctx (snd (m s)) = s_ctx s) -> back n A ch m.
Proof. intros H s _ _. rewrite H. split; [reflexivity|]. split; [left; unfold stack_of; rewrite H; reflexivity|]. auto. Qed.
Lemma back_bind n A B ch (m : st mach A) (k : A -> st mach B) : back n A ch m -> (forall a, back n B ch (k a)) -> back n B ch (bind m k).
Proof.
  intros Hm Hk s HT HD. unfold bind. specialize (Hm s HT HD). destruct (m s) as [[a|e] s1]; cbn [fst snd] in *.
  - destruct Hm as (_ & _ & H). assert (E : s_ctx s1 = s_ctx s) by (apply H; discriminate). specialize (Hk a s1). rewrite E in Hk. unfold stack_of in Hk at 1 2. rewrite E in Hk. apply Hk; assumption.
  - destruct Hm as (H1 & H2 & H3). split; [exact H1|]. split; [exact H2|]. intros H. apply H3. intros X. injection X as ->. apply H. reflexivity.
Qed.
Lemma enter_back c s : top_ok (s_ctx s) -> List.length (stack_of s) < RECURSION_LIMIT ->
  cx_base (s_ctx (snd (enter c s))) = cx_base (s_ctx s) /\
  match fst (enter c s) with
  | Err e => leaked (stack_of s) (stack_of (snd (enter c s))) /\ (e <> EException -> s_ctx (snd (enter c s)) = s_ctx s)
  | Ok _ => top_ok (s_ctx (snd (enter c s))) /\ List.length (stack_of (snd (enter c s))) <= S (List.length (stack_of s)) /\ popped (stack_of (snd (enter c s))) = stack_of s
  end.
Proof.
  intros HT HD. unfold enter. rewrite bind_eq. cbn [gets]. destruct (context_changed (s_ctx s) c) eqn:CC.
  - rewrite bind_eq. unfold on_w, on_drv. destruct (get_owner c (w_drv (s_w s))) as [[o|e] v1]; cbn [fst snd].
    2:{ split; [reflexivity|]. split; [left; reflexivity|reflexivity]. }
    rewrite bind_eq. cbn [gets]. rewrite bind_eq. cbn [modify]. set (s1 := set_w (mkW v1 (w_rt (s_w s))) s). change (s_ctx s1) with (s_ctx s). set (cs := mkCs _ _ _ _ _ _).
    set (s2 := upd_ctx (add_state RECURSION_LIMIT cs) s1). assert (C2 : s_ctx s2 = mkCtx ((cs, 1) :: cx_stack (s_ctx s)) (cx_base (s_ctx s))).
    { change (s_ctx s2) with (add_state RECURSION_LIMIT cs (s_ctx s)). unfold add_state. cbn [c_this cs]. rewrite CC. cbn [andb]. fold (stack_of s). destruct (Nat.ltb_spec (List.length (stack_of s)) RECURSION_LIMIT); [reflexivity|lia]. }
    assert (PS : popped (stack_of s2) = stack_of s) by (unfold stack_of; rewrite C2; reflexivity).
    destruct (is_none o || is_owner o (c_this (get_state (s_ctx s))))%bool; cbn [ret raise fst snd]; (split; [rewrite C2; reflexivity|]).
    + split; [unfold top_ok; rewrite C2; exact I|]. split; [unfold stack_of; rewrite C2; cbn; lia|exact PS].
    + split; [right; exact PS|]. intros H. exfalso. apply H. reflexivity.
  - cbn [modify fst snd]. change (s_ctx (upd_ctx ins_state s)) with (ins_state (s_ctx s)). unfold stack_of. change (s_ctx (upd_ctx ins_state s)) with (ins_state (s_ctx s)). unfold top_ok in *.
    destruct (s_ctx s) as [[|[cs d] r] b]; cbn in *; [auto|]. split; [reflexivity|]. split; [exact I|]. split; [lia|]. unfold popped, pop_state. cbn. destruct d; [contradiction|]. reflexivity.
Qed.
Lemma back_export n ch c (m : st mach pyval) : back n pyval (c :: ch) m -> back (S n) pyval ch (with_export ch c m).
Proof.
  intros Hm s HT HD. unfold with_export. assert (HD' : List.length (stack_of s) < RECURSION_LIMIT) by lia.
  destruct (enter_back c s HT HD') as (E1 & E2). destruct (enter c s) as [[[]|e] s1]; cbn [fst snd] in *.
  2:{ destruct E2 as [E2 E3]. split; [exact E1|]. split; [exact E2|]. intros H. apply E3. intros ->. apply H. reflexivity. }
  destruct E2 as (K1 & K2 & K3). set (s2 := note _ s1).
  destruct (Hm s2) as (H1 & H2 & H3); [exact K1|change (stack_of s2) with (stack_of s1); lia|].
  destruct (m s2) as [r s3]. cbn [fst snd] in *.
  assert (EC : s_ctx (upd_ctx pop_state s3) = mkCtx (popped (stack_of s3)) (cx_base (s_ctx s3))) by exact (pop_eq (s_ctx s3)).
  assert (B3 : cx_base (s_ctx s3) = cx_base (s_ctx s)) by (rewrite H1; exact E1).
  rewrite EC. cbn [cx_base]. split; [exact B3|]. unfold stack_of at 2. rewrite EC. cbn [cx_stack]. split; [rewrite <- K3; apply leaked_popped; exact H2|].
  intros H. specialize (H3 H). rewrite B3. unfold stack_of. rewrite H3. change (cx_stack (s_ctx s2)) with (stack_of s1). rewrite K3. unfold stack_of. destruct (s_ctx s); reflexivity.
Qed.
Lemma each_any p : each (fun _ => True) p.
Proof. induction p; cbn; firstorder. Qed.
Section Back.
  Variable L : lang.
  Lemma back_load fuel ch n : (forall md, back fuel pyval (n :: ch) (deeper L fuel (n :: ch) (m_init md))) -> back (S fuel) unit ch (load L (deeper L fuel) ch n).
  Proof.
    intros HI s HT HD. unfold load. set (s0 := set_mods (dset n None (s_mods s)) s).
    assert (HB : back fuel modul (n :: ch) (let! md := fetch L n in deeper L fuel (n :: ch) (m_init md);; ret md)).
    { apply back_bind; [apply back_same; intros x; destruct (fetch_quiet L (fun _ => True) (fun _ _ _ => I) n x) as [[H _] _]; exact H|].
      intros md. apply back_bind; [apply HI|]. intros v. apply back_same. reflexivity. }
    specialize (HB s0 HT). change (stack_of s0) with (stack_of s) in HB. change (s_ctx s0) with (s_ctx s) in HB.
    destruct HB as (H1 & H2 & H3); [lia|]. destruct ((let! md := fetch L n in deeper L fuel (n :: ch) (m_init md);; ret md) s0) as [[md|e] s1]; cbn [fst snd] in *.
    - split; [exact H1|]. split; [exact H2|]. intros _. apply H3. discriminate.
    - split; [exact H1|]. split; [exact H2|]. intros H. apply H3. intros X. injection X as ->. apply H. reflexivity.
  Qed.
  Ltac feed thm := eapply thm with (L := L) (Q := fun _ => True) (QM := fun _ => True) (T := back);
    [ auto | intros; apply each_any | intros; apply each_any | intros; apply each_any | intros; apply each_any
    | intros lv A0 ch0 m0 H0 s0 HT0 HD0; apply H0; [exact HT0|lia]
    | intros lv A0 ch0 a0; apply back_same; reflexivity
    | intros lv A0 ch0 e0; apply back_same; reflexivity
    | exact back_bind
    | intros lv A0 B0 ch0 f0 k0 H0 s HT0 HD0; refine (H0 (view_of s) _ s HT0 HD0); intros ? ? ?; exact I
    | intros lv ch0 k0; apply back_same; intros s; apply read_quiet
    | intros lv ch0 kd0 n0; apply back_same; reflexivity
    | intros lv ch0 n0; apply back_same; reflexivity
    | intros lv ch0 a0 k0 _; apply back_same; intros s; apply act_quiet
    | intros lv ch0 e0 k0 _; apply back_same; intros s; apply line_quiet
    | intros lv ch0 l0 o0 k0 _; apply back_same; intros s; apply guard_quiet
    | intros lv ch0 c0 m0 _; apply back_export
    | intros fu0 ch0 n0 H0; apply back_load; intros md0; exact (H0 md0 I)
    | intros fu0 ch0 c0 fn0 ar0 k0 md0 f0 _ _ _ _ H0 s0 HT0 HD0; apply H0; [exact HT0|lia]
    | intros fu0 ch0 c0 fn0 ar0 k0 md0 f0 _ _ _ H0 s0 HT0 HD0; cbn [bind modify]; refine (H0 (note (OHost c0 fn0) s0) HT0 _); change (stack_of (note (OHost c0 fn0) s0)) with (stack_of s0); lia
    | .. ].
  Theorem run_back fuel ch p : back (S fuel) pyval ch (run L fuel ch p).
  Proof. feed T_run; apply each_any. Qed.
  Theorem import_back fuel kind ch n : back (S fuel) unit ch (plain_import L (deeper L fuel) kind ch n).
  Proof. feed T_top_import. Qed.
  Theorem call_back fuel ch c f args : back (S fuel) pyval ch (call L (deeper L fuel) ch c f args).
  Proof. feed T_top_call; first [exact I | exact (fun _ => PRet VNone)]. Qed.
End Back.
