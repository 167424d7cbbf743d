(** * Two runs on machines that read the same *)
From Verif Require Import Model.Base Model.State Model.Dec Model.Time Model.Value Model.Encoder Model.Hdf5 Model.Runtime Model.Driver Model.Orm Model.Exec Model.Executor.
From Verif Require Import Spec.OrmSpec Spec.ExecSpec Spec.DetSpec Proofs.BaseFacts Proofs.DriverFacts Proofs.OrmFacts Proofs.ExecFacts Proofs.ExecRel Proofs.MeterFacts Proofs.TxFacts Proofs.DrvRel Proofs.SubmitFacts.

Lemma settled_find v k : settled v k = find k (set_writes [] v).
Proof. unfold settled, get. destruct (find k (set_writes [] v)); reflexivity. Qed.
Lemma find_settled v k : find k v = if (negb (dv_bypass v) && negb (is_none (pget k (dv_writes v))))%bool then Ok (pget k (dv_writes v)) else settled v k.
Proof. rewrite settled_find. unfold find. cbn [dv_bypass dv_writes dv_cache dv_disk set_writes]. destruct (dv_bypass v); [reflexivity|]. cbn. destruct (is_none (pget k (dv_writes v))); reflexivity. Qed.
Lemma is_none_eq v : is_none v = true <-> v = VNone.
Proof. destruct v; split; cbn; congruence. Qed.
Lemma is_none_neq v : is_none v = false <-> v <> VNone.
Proof. destruct v; split; cbn; congruence. Qed.
Lemma settled_same v v' k : dv_bypass v' = dv_bypass v -> dv_cache v' = dv_cache v -> dv_disk v' = dv_disk v -> settled v' k = settled v k.
Proof. intros E1 E2 E3. rewrite !settled_find. unfold find. cbn [dv_bypass dv_writes dv_cache dv_disk set_writes]. rewrite E1, E2, E3. reflexivity. Qed.
Lemma pget_dset k x (d : dict pyval) k' : pget k' (dset k x d) = if str_eqb k' k then x else pget k' d.
Proof. unfold pget. rewrite dget_dset. destruct (str_eqb k' k); reflexivity. Qed.

(** [RE]: the recorded reads are the same too; [KE]: so are the files and the cache.
    [saved]: pending writes that may be restored later. *)
Section Sim.
  Variables (RE DE CE : Prop) (saved : dict pyval).
  Definition sound (v : driver) : Prop := forall k, pget k saved <> VNone \/ pget k (dv_writes v) <> VNone \/ pget k (dv_reads v) <> VNone -> exists x, settled v k = Ok x.
  Record dsim (v1 v2 : driver) : Prop := mkDsim {
    ds_writes : dv_writes v1 = dv_writes v2; ds_settled : forall k, settled v1 k = settled v2 k; ds_bypass : dv_bypass v1 = dv_bypass v2;
    ds_txn : dv_txn v1 = dv_txn v2; ds_events : dv_events v1 = dv_events v2; ds_sound1 : sound v1; ds_sound2 : sound v2;
    ds_reads : RE -> dv_reads v1 = dv_reads v2; ds_disk : DE -> dv_disk v1 = dv_disk v2; ds_cache : CE -> dv_cache v1 = dv_cache v2 }.
  Definition dcong {A} (m : st driver A) : Prop := forall v1 v2, dsim v1 v2 -> fst (m v1) = fst (m v2) /\ dsim (snd (m v1)) (snd (m v2)).
  Lemma dc_ret A (a : A) : dcong (ret a). Proof. intros v1 v2 H. split; [reflexivity|exact H]. Qed.
  Lemma dc_lift A (r : result A) : dcong (lift r). Proof. intros v1 v2 H. split; [reflexivity|exact H]. Qed.
  Lemma dc_bind A B (m : st driver A) (k : A -> st driver B) : dcong m -> (forall a, dcong (k a)) -> dcong (bind m k).
  Proof.
    intros Hm Hk v1 v2 H. unfold bind. destruct (Hm v1 v2 H) as [E S]. destruct (m v1) as [r1 v1'], (m v2) as [r2 v2']. cbn [fst snd] in *. subst r2.
    destruct r1 as [a|e]; [apply Hk, S|split; [reflexivity|exact S]].
  Qed.
  Lemma dc_mapm A B (f : A -> st driver B) l : (forall a, dcong (f a)) -> dcong (mapm f l).
  Proof. intros H. induction l as [|x l IH]; cbn [mapm]; [apply dc_ret|]. apply dc_bind; [apply H|]. intros y. apply dc_bind; [exact IH|]. intros ys. apply dc_ret. Qed.
  Lemma dsim_find v1 v2 k : dsim v1 v2 -> find k v1 = find k v2.
  Proof. intros H. rewrite !find_settled, (ds_writes _ _ H), (ds_bypass _ _ H), (ds_settled _ _ H). reflexivity. Qed.
  Lemma find_sound v k x : sound v -> find k v = Ok x -> exists y, settled v k = Ok y.
  Proof.
    intros H E. rewrite find_settled in E. destruct (negb (dv_bypass v)); cbn [andb] in E; [|eauto].
    destruct (is_none (pget k (dv_writes v))) eqn:N; cbn [negb] in E; [eauto|]. apply H. right. left. apply is_none_neq, N.
  Qed.
  Lemma sound_reads_set v k x y : sound v -> find k v = Ok y -> sound (set_reads (dset k x (dv_reads v)) v).
  Proof.
    intros H E k' Hk. rewrite (settled_same v) by reflexivity. cbn [dv_writes dv_reads set_reads] in Hk. rewrite pget_dset in Hk.
    destruct (str_eqb k' k) eqn:EK; [apply str_eqb_eq in EK; subst k'; eapply find_sound; eauto|apply H, Hk].
  Qed.
  Lemma get_snd k v : snd (get k v) = match find k v with Ok x => if is_none (pget k (dv_reads v)) then set_reads (dset k x (dv_reads v)) v else v | Err _ => v end.
  Proof. unfold get. destruct (find k v); reflexivity. Qed.
  Lemma get_fst k v : fst (get k v) = find k v.
  Proof. unfold get. destruct (find k v); reflexivity. Qed.
  Lemma sound_get k v : sound v -> sound (snd (get k v)).
  Proof. intros H. rewrite get_snd. destruct (find k v) eqn:E; [|exact H]. destruct (is_none (pget k (dv_reads v))); [eapply sound_reads_set; eauto|exact H]. Qed.
  (** only the recorded reads change *)
  Lemma dsim_reads v1 v2 r1 r2 : dsim v1 v2 -> sound (set_reads r1 v1) -> sound (set_reads r2 v2) -> (RE -> r1 = r2) -> dsim (set_reads r1 v1) (set_reads r2 v2).
  Proof.
    intros H S1 S2 HR. destruct H as [A1 A2 A3 A4 A5 A6 A7 A8 A9 A10]. constructor; auto; intros k.
    etransitivity; [apply (settled_same v1); reflexivity|]. etransitivity; [apply A2|]. symmetry. apply (settled_same v2); reflexivity.
  Qed.
  Lemma dc_get k : dcong (get k).
  Proof.
    intros v1 v2 H. split; [rewrite !get_fst; apply dsim_find, H|].
    pose proof (sound_get k v1 (ds_sound1 _ _ H)) as S1. pose proof (sound_get k v2 (ds_sound2 _ _ H)) as S2.
    rewrite !get_snd in *. rewrite <- (dsim_find _ _ k H) in *. destruct (find k v1) as [x|e]; [|exact H].
    assert (E : forall v : driver, (if is_none (pget k (dv_reads v)) then set_reads (dset k x (dv_reads v)) v else v) = set_reads (if is_none (pget k (dv_reads v)) then dset k x (dv_reads v) else dv_reads v) v).
    { intros v. destruct (is_none (pget k (dv_reads v))); [reflexivity|symmetry; apply set_reads_same]. }
    rewrite !E in *. apply dsim_reads; [exact H|exact S1|exact S2|intros HR; rewrite (ds_reads _ _ H HR); reflexivity].
  Qed.
  Lemma sound_write v k x : sound v -> (exists y, settled v k = Ok y) -> sound (set_writes (dset k x (dv_writes v)) v).
  Proof.
    intros H HK k' Hk. rewrite (settled_same v) by reflexivity. cbn [dv_writes dv_reads set_writes] in Hk. rewrite pget_dset in Hk.
    destruct (str_eqb k' k) eqn:EK; [apply str_eqb_eq in EK; subst k'; exact HK|apply H, Hk].
  Qed.
  Lemma dsim_writes v1 v2 w : dsim v1 v2 -> sound (set_writes w v1) -> sound (set_writes w v2) -> dsim (set_writes w v1) (set_writes w v2).
  Proof.
    intros H S1 S2. destruct H as [A1 A2 A3 A4 A5 A6 A7 A8 A9 A10]. constructor; auto.
  Qed.
  Lemma sound_txn v w : sound v -> sound (set_txn w v).
  Proof. intros H k Hk. rewrite (settled_same v) by reflexivity. apply H, Hk. Qed.
  Lemma sound_events v w : sound v -> sound (set_events w v).
  Proof. intros H k Hk. rewrite (settled_same v) by reflexivity. apply H, Hk. Qed.
  Lemma dsim_txn v1 v2 w : dsim v1 v2 -> dsim (set_txn w v1) (set_txn w v2).
  Proof.
    intros H. destruct H as [A1 A2 A3 A4 A5 A6 A7 A8 A9 A10]. constructor; auto using sound_txn; intros k.
    etransitivity; [apply (settled_same v1); reflexivity|]. etransitivity; [apply A2|]. symmetry. apply (settled_same v2); reflexivity.
  Qed.
  Lemma dsim_events v1 v2 w : dsim v1 v2 -> dsim (set_events w v1) (set_events w v2).
  Proof.
    intros H. destruct H as [A1 A2 A3 A4 A5 A6 A7 A8 A9 A10]. constructor; auto using sound_events; intros k.
    etransitivity; [apply (settled_same v1); reflexivity|]. etransitivity; [apply A2|]. symmetry. apply (settled_same v2); reflexivity.
  Qed.
  Lemma dc_event e : dcong (set_event e).
  Proof. intros v1 v2 H. split; [reflexivity|]. cbn. rewrite (ds_events _ _ H). apply dsim_events, H. Qed.
  (** the read that precedes a write *)
  Lemma pre_read k v1 v2 : dsim v1 v2 ->
    let pre := fun v => (if is_none (pget k (dv_reads v)) then (get k;; ret tt) else ret tt) v in
    fst (pre v1) = fst (pre v2) /\ dsim (snd (pre v1)) (snd (pre v2)) /\ (forall v, sound v -> is_ok (fst (pre v)) = true -> exists y, settled v k = Ok y).
  Proof.
    intros H. cbv zeta.
    assert (E : forall v, sound v -> exists r, (if is_none (pget k (dv_reads v)) then (get k;; ret tt) else ret tt) v =
        ((do _ <- find k v; Ok tt), set_reads r v) /\ (RE -> r = dv_reads (snd (get k v))) /\ sound (set_reads r v)).
    { intros v S. destruct (is_none (pget k (dv_reads v))) eqn:N.
      - exists (dv_reads (snd (get k v))). destruct (ro_get k v) as (r & Hr). rewrite Hr. cbn [dv_reads set_reads]. split; [|split; [reflexivity|rewrite <- Hr; apply sound_get, S]].
        unfold bind. rewrite <- (get_fst k v). destruct (get k v) as [[y|e] v1']; cbn [fst snd bindr] in *; subst; reflexivity.
      - exists (dv_reads v). rewrite set_reads_same. split; [|split; [|exact S]].
        + destruct (S k) as (x & Hx); [right; right; apply is_none_neq, N|]. rewrite find_settled, Hx. destruct (_ && _)%bool; reflexivity.
        + intros _. rewrite get_snd. destruct (find k v); [rewrite N|]; reflexivity. }
    destruct (E v1 (ds_sound1 _ _ H)) as (r1 & E1 & R1 & S1). destruct (E v2 (ds_sound2 _ _ H)) as (r2 & E2 & R2 & S2). rewrite E1, E2. cbn [fst snd].
    split; [rewrite (dsim_find _ _ k H); reflexivity|]. split.
    - apply dsim_reads; auto. intros HR. rewrite (R1 HR), (R2 HR). destruct (dc_get k _ _ H) as [_ X]. apply (ds_reads _ _ X HR).
    - intros v S. destruct (E v S) as (r & EE & _). rewrite EE. cbn [fst]. destruct (find k v) as [x|e] eqn:F; [|discriminate]. intros _. eapply find_sound; eauto.
  Qed.
  Lemma dc_set_body k x b : dcong (set_body k x b).
  Proof.
    intros v1 v2 H. remember (set_body k x b v1) as R1 eqn:E1. remember (set_body k x b v2) as R2 eqn:E2. unfold set_body in E1, E2.
    rewrite bind_eq in E1, E2. cbn [gets] in E1, E2. rewrite bind_eq in E1, E2.
    destruct (pre_read k v1 v2 H) as (F & S & HS). cbv zeta in *.
    pose proof (HS v1 (ds_sound1 _ _ H)) as HS1. pose proof (HS v2 (ds_sound2 _ _ H)) as HS2. clear HS.
    pose proof (fun v => @ro_bind _ _ (get k) (fun _ => ret tt) (ro_get k) (fun _ => ro_ret tt) v) as RO.
    assert (RO' : forall v, exists r, snd ((if is_none (pget k (dv_reads v)) then (get k;; ret tt) else ret tt) v) = set_reads r v).
    { intros v. destruct (is_none (pget k (dv_reads v))); [apply RO|exists (dv_reads v); symmetry; apply set_reads_same]. }
    destruct (RO' v1) as (r1 & Q1), (RO' v2) as (r2 & Q2). clear RO RO'.
    destruct ((if is_none (pget k (dv_reads v1)) then (get k;; ret tt) else ret tt) v1) as [y1 u1].
    destruct ((if is_none (pget k (dv_reads v2)) then (get k;; ret tt) else ret tt) v2) as [y2 u2]. cbn [fst snd] in *. subst y2.
    destruct y1 as [y|e]; [|subst; cbn [fst snd]; split; [reflexivity|exact S]].
    rewrite bind_eq in E1, E2. cbn [lift] in E1, E2. destruct (coerce x) as [z|e]; [|subst; cbn [fst snd]; split; [reflexivity|exact S]].
    rewrite bind_eq in E1, E2. cbn [modify] in E1, E2. rewrite (ds_writes _ _ S) in E1.
    assert (D : dsim (set_writes (dset k z (dv_writes u2)) u1) (set_writes (dset k z (dv_writes u2)) u2)).
    { apply dsim_writes; [exact S| |].
      - rewrite <- (ds_writes _ _ S). apply sound_write; [apply S|]. subst u1. rewrite (settled_same v1) by reflexivity. apply HS1. reflexivity.
      - apply sound_write; [apply S|]. subst u2. rewrite (settled_same v2) by reflexivity. apply HS2. reflexivity. }
    destruct b; cbn [modify ret] in E1, E2; subst R1 R2; cbn [fst snd]; (split; [reflexivity|]); [|exact D].
    unfold modify. cbn [snd]. rewrite (ds_txn _ _ D). apply dsim_txn, D.
  Qed.
  Lemma dc_items ord p : DE -> CE -> dcong (items ord p).
  Proof.
    intros HD HC v1 v2 H. unfold items. rewrite !bind_eq. cbn [gets]. rewrite (ds_writes _ _ H), (ds_cache _ _ H HC), (ds_disk _ _ H HD).
    apply (dc_bind _ _ (lift _)); [apply dc_lift| |exact H]. intros db. apply dc_bind; [|intros; apply dc_ret]. apply dc_mapm. intros a. apply dc_bind; [apply dc_get|intros; apply dc_ret].
  Qed.

  (** ** With the runtime: [eb] false: the base of the call context may differ *)
  Section Eb.
  Variable eb : bool.
  Definition rnorm (r : runtime) : runtime := if eb then r else set_ctx (mkCtx (cx_stack (rt_ctx r)) base0) r.
  Definition wsim (w1 w2 : world) : Prop := dsim (w_drv w1) (w_drv w2) /\ rnorm (w_rt w1) = rnorm (w_rt w2).
  Definition wcong {A} (m : st world A) : Prop := forall w1 w2, wsim w1 w2 -> fst (m w1) = fst (m w2) /\ wsim (snd (m w1)) (snd (m w2)).
  Lemma wc_ret A (a : A) : wcong (ret a). Proof. intros v1 v2 H. split; [reflexivity|exact H]. Qed.
  Lemma wc_lift A (r : result A) : wcong (lift r). Proof. intros v1 v2 H. split; [reflexivity|exact H]. Qed.
  Lemma wc_check b : wcong (check b). Proof. apply wc_lift. Qed.
  Lemma wc_raise A e : wcong (raise e : st world A). Proof. intros v1 v2 H. split; [reflexivity|exact H]. Qed.
  Lemma wc_bind A B (m : st world A) (k : A -> st world B) : wcong m -> (forall a, wcong (k a)) -> wcong (bind m k).
  Proof.
    intros Hm Hk v1 v2 H. unfold bind. destruct (Hm v1 v2 H) as [E S]. destruct (m v1) as [r1 v1'], (m v2) as [r2 v2']. cbn [fst snd] in *. subst r2.
    destruct r1 as [a|e]; [apply Hk, S|split; [reflexivity|exact S]].
  Qed.
  Lemma wc_foreach A (f : A -> st world unit) l : (forall a, wcong (f a)) -> wcong (foreach f l).
  Proof. intros H. induction l as [|x l IH]; cbn [foreach]; [apply wc_ret|]. apply wc_bind; [apply H|]. intros y. exact IH. Qed.
  Lemma wc_drv A (m : st driver A) : dcong m -> wcong (on_drv m).
  Proof.
    intros H w1 w2 [HD HR]. unfold on_drv. destruct (H _ _ HD) as [E S]. destruct (m (w_drv w1)), (m (w_drv w2)). cbn [fst snd] in *. split; [exact E|]. split; [exact S|exact HR].
  Qed.
  Lemma rnorm_eq r1 r2 : rnorm r1 = rnorm r2 -> rt_tracer r1 = rt_tracer r2 /\ rt_writes r1 = rt_writes r2 /\ rt_env r1 = rt_env r2 /\ rt_loaded r1 = rt_loaded r2 /\ rt_seeded r1 = rt_seeded r2 /\ cx_stack (rt_ctx r1) = cx_stack (rt_ctx r2) /\ (eb = true -> r1 = r2).
  Proof. unfold rnorm. destruct eb; intros E; [subst; auto 10|]. unfold set_ctx in E. injection E. intros. repeat (split; [congruence|]). discriminate. Qed.
  Lemma rnorm_intro r1 r2 : rt_tracer r1 = rt_tracer r2 -> rt_writes r1 = rt_writes r2 -> rt_env r1 = rt_env r2 -> rt_loaded r1 = rt_loaded r2 -> rt_seeded r1 = rt_seeded r2 -> cx_stack (rt_ctx r1) = cx_stack (rt_ctx r2) -> (eb = true -> cx_base (rt_ctx r1) = cx_base (rt_ctx r2)) -> rnorm r1 = rnorm r2.
  Proof.
    intros. unfold rnorm. destruct eb; unfold set_ctx.
    - destruct r1 as [? ? [? ?] ? ? ?], r2 as [? ? [? ?] ? ? ?]. cbn in *. rewrite H5 by reflexivity. congruence.
    - congruence.
  Qed.
  Lemma wc_deduct kl vl : wcong (on_rt (deduct_write kl vl)).
  Proof.
    intros [v1 r1] [v2 r2] [HD HR]. cbn [w_drv w_rt] in *. destruct (rnorm_eq _ _ HR) as (E1 & E2 & E3 & E4 & E5 & E6 & E7).
    unfold on_rt, deduct_write. cbn [w_rt w_drv]. rewrite <- E1, <- E2. destruct (tr_started (rt_tracer r1)); [|split; [reflexivity|split; [exact HD|exact HR]]].
    cbv zeta. cbn [rt_writes rt_tracer set_rwrites]. destruct (Z.ltb _ WRITE_MAX).
    - unfold on_tracer. cbn [rt_tracer set_rwrites]. rewrite <- E1. destruct (add_cost _ (rt_tracer r1)) as [x tr]. cbn [fst snd]. split; [reflexivity|]. split; [exact HD|]. cbn [w_rt].
      apply rnorm_intro; cbn [rt_tracer rt_writes rt_env rt_loaded rt_seeded rt_ctx set_tracer set_rwrites]; auto. intros X. rewrite (E7 X). reflexivity.
    - split; [reflexivity|]. split; [exact HD|]. cbn [snd w_rt]. apply rnorm_intro; cbn [rt_tracer rt_writes rt_env rt_loaded rt_seeded rt_ctx set_tracer set_rwrites]; auto. intros X. rewrite (E7 X). reflexivity.
  Qed.
  Lemma wc_set k x b : wcong (set k x b).
  Proof.
    unfold set. apply wc_bind; [apply wc_lift|]. intros [kl vl]. apply wc_bind; [apply wc_deduct|]. intros _. apply wc_drv, dc_set_body.
  Qed.
  Lemma wc_set_contract cmp n code o now dev : wcong (set_contract cmp n code o now dev).
  Proof.
    unfold set_contract. apply wc_bind; [apply wc_drv, dc_get|]. intros x. destruct (is_none x); [|apply wc_ret].
    apply wc_bind; [apply wc_lift|]. intros blob. unfold set_var. repeat (apply wc_bind; [apply wc_set|]; intros _). apply wc_set.
  Qed.
  End Eb.
  Lemma wc_gets A (f : world -> A) : (forall v1 v2 r, f (mkW v1 r) = f (mkW v2 r)) -> wcong true (gets f).
  Proof. intros H [v1 r1] [v2 r2] [HD HR]. cbn in *. subst r2. split; [cbn; f_equal; apply H|split; [exact HD|reflexivity]]. Qed.
  Lemma wc_gets_bind A B (f : runtime -> A) (k : A -> st world B) : (forall a, wcong true (k a)) -> wcong true (bind (gets (fun w => f (w_rt w))) k).
  Proof. intros H. apply wc_bind; [apply wc_gets; reflexivity|exact H]. Qed.
  Definition unlisted (a : action) : Prop := match a with ActHashAll _ _ | ActHashClear _ _ => False | _ => True end.
  Lemma wc_act L a : (unlisted a \/ DE /\ CE) -> wcong true (do_act L a).
  Proof.
    intros HU. assert (HI : forall ord p, ~ unlisted a -> dcong (items ord p)) by (intros ord p N; apply dc_items; tauto).
    destruct a as [x|x v|h k|h k v|h l|h l|e p d|salt|d|c n|c n v|nm code o now dev]; cbn [do_act unlisted] in *.
    - apply wc_bind; [apply wc_drv, dc_get|intros; apply wc_ret].
    - apply wc_bind; [|intros; apply wc_ret]. unfold var_set. apply wc_bind; [|intros; apply wc_set].
      destruct (v_type x); [|apply wc_ret]. destruct (is_none v); [apply wc_ret|]. apply wc_bind; [apply wc_lift|intros; apply wc_check].
    - unfold hash_get. apply wc_bind; [apply wc_lift|]. intros s. apply wc_bind; [apply wc_drv, dc_get|]. intros y.
      destruct (if is_none y then h_default h else y); try apply wc_ret; (apply wc_bind; [apply wc_lift|intros; apply wc_ret]).
    - apply wc_bind; [|intros; apply wc_ret]. unfold hash_set. apply wc_bind; [apply wc_lift|]. intros s. apply wc_set.
    - apply wc_bind; [|intros; apply wc_ret]. unfold hash_all. apply wc_bind; [apply wc_lift|]. intros p. apply wc_drv. unfold values.
      apply dc_bind; [apply HI; tauto|]. intros _. apply dc_bind; [apply HI; tauto|]. intros i. apply dc_ret.
    - apply wc_bind; [|intros; apply wc_ret]. unfold hash_clear, hash_items. apply wc_bind.
      + apply wc_bind; [apply wc_lift|]. intros p. apply wc_drv, HI. tauto.
      + intros i. apply wc_foreach. intros k. apply wc_set.
    - apply wc_bind.
      + unfold log_decl. apply (wc_gets_bind _ _ (fun r => c_signer (get_state (rt_ctx r)))). intros sg. apply wc_bind; [apply wc_check|]. intros _. apply wc_bind; [apply wc_check|]. intros _.
        apply wc_bind; [|intros; apply wc_ret]. apply wc_foreach. intros q. destruct (p_types (snd q)); [apply wc_check|apply wc_raise].
      + intros ev. apply wc_bind; [|intros; apply wc_ret]. unfold log_emit. apply (wc_gets_bind _ _ (fun r => get_state (rt_ctx r))). intros cs.
        assert (HP : forall kv, wcong true (pay_arg (le_params ev) kv)).
        { intros kv. unfold pay_arg. apply wc_bind; [apply wc_lift|]. intros q. apply wc_bind; [apply wc_lift|]. intros b. apply wc_bind; [apply wc_check|]. intros _.
          apply wc_bind; [apply wc_lift|]. intros [kl vl]. apply wc_deduct. }
        apply wc_bind; [apply wc_check|]. intros _. apply wc_bind; [apply wc_foreach; intros; apply wc_check|]. intros _.
        apply wc_bind; [apply wc_foreach; intros; apply wc_lift|]. intros _. apply wc_bind; [apply wc_lift|]. intros ix. apply wc_bind; [apply wc_lift|]. intros dt.
        apply wc_bind; [apply wc_foreach; exact HP|]. intros _. apply wc_bind; [apply wc_foreach; exact HP|]. intros _. apply wc_drv, dc_event.
    - unfold do_seed. apply (wc_gets_bind _ _ (fun r => r)). intros r. apply wc_bind; [apply wc_lift|]. intros s. apply wc_bind; [|intros; apply wc_ret].
      intros [v1 r1] [v2 r2] [HD HR]. cbn in HR, HD. subst r2. split; [reflexivity|split; [exact HD|reflexivity]].
    - unfold do_random. apply (wc_gets_bind _ _ (fun r => r)). intros r. destruct (rt_seeded r) as [[s ds]|]; [|apply wc_raise]. apply wc_bind; [|intros; apply wc_lift].
      intros [v1 r1] [v2 r2] [HD HR]. cbn in HR, HD. subst r2. split; [reflexivity|split; [exact HD|reflexivity]].
    - apply wc_drv, dc_get.
    - apply wc_bind; [apply wc_set|intros; apply wc_ret].
    - apply wc_bind; [apply wc_set_contract|intros; apply wc_ret].
  Qed.
End Sim.

(** ** The whole machine *)
Section Mach.
  Variables (RE DE CE : Prop) (L : lang).
  Definition listed_ok (p : prog) : Prop := match p with PAct a _ => unlisted a \/ DE /\ CE | _ => True end.
  Notation QM := (module_all listed_ok).
  Hypothesis HL : lang_all QM L.
  Section Saved.
  Variable saved : dict pyval.
  Record msim (eb : bool) (s1 s2 : mach) : Prop := mkMsim {
    ms_w : wsim RE DE CE saved eb (s_w s1) (s_w s2); ms_mods : s_mods s1 = s_mods s2; ms_hosts : s_hosts s1 = s_hosts s2;
    ms_res : s_restricted s1 = s_restricted s2; ms_all : mods_all QM (s_mods s1) }.
  Definition mcong (eb : bool) {A} (m : st mach A) : Prop := forall s1 s2, msim eb s1 s2 -> fst (m s1) = fst (m s2) /\ msim eb (snd (m s1)) (snd (m s2)).
  Lemma mc_ret eb A (a : A) : mcong eb (ret a). Proof. intros v1 v2 H. split; [reflexivity|exact H]. Qed.
  Lemma mc_lift eb A (r : result A) : mcong eb (lift r). Proof. intros v1 v2 H. split; [reflexivity|exact H]. Qed.
  Lemma mc_raise eb A e : mcong eb (raise e : st mach A). Proof. intros v1 v2 H. split; [reflexivity|exact H]. Qed.
  Lemma mc_bind eb A B (m : st mach A) (k : A -> st mach B) : mcong eb m -> (forall a, mcong eb (k a)) -> mcong eb (bind m k).
  Proof.
    intros Hm Hk v1 v2 H. unfold bind. destruct (Hm v1 v2 H) as [E S]. destruct (m v1) as [r1 v1'], (m v2) as [r2 v2']. cbn [fst snd] in *. subst r2.
    destruct r1 as [a|e]; [apply Hk, S|split; [reflexivity|exact S]].
  Qed.
  Lemma mc_w eb A (m : st world A) : wcong RE DE CE saved eb m -> mcong eb (on_w m).
  Proof.
    intros H s1 s2 [HW A1 A2 A3 A4]. unfold on_w. destruct (H _ _ HW) as [E S]. destruct (m (s_w s1)), (m (s_w s2)). cbn [fst snd] in *. split; [exact E|]. constructor; assumption.
  Qed.
  Lemma mc_read eb k : mcong eb (on_w (on_drv (get k))). Proof. apply mc_w, wc_drv, dc_get. Qed.
  Lemma msim_log eb s1 s2 l1 l2 : msim eb s1 s2 -> msim eb (set_log l1 s1) (set_log l2 s2).
  Proof. intros [A1 A2 A3 A4 A5]. constructor; assumption. Qed.
  Lemma msim_note eb s1 s2 o1 o2 : msim eb s1 s2 -> msim eb (note o1 s1) (note o2 s2).
  Proof. apply msim_log. Qed.
  Lemma ms_rt s1 s2 : msim true s1 s2 -> s_rt s1 = s_rt s2. Proof. intros H. apply (ms_w _ _ _ H). Qed.
  Lemma ms_view s1 s2 : msim true s1 s2 -> view_of s1 = view_of s2.
  Proof. intros H. unfold view_of, s_ctx. rewrite (ms_rt _ _ H), (ms_mods _ _ _ H), (ms_hosts _ _ _ H), (ms_res _ _ _ H). reflexivity. Qed.
  Lemma mc_view A B (f : view -> B) (k : B -> st mach A) : (forall v, mods_all QM (vw_mods v) -> mcong true (k (f v))) -> mcong true (bind (gets (fun s => f (view_of s))) k).
  Proof. intros H s1 s2 S. unfold bind, gets. rewrite <- (ms_view _ _ S). apply (H (view_of s1) (ms_all _ _ _ S) s1 s2 S). Qed.
  Lemma mc_act a k : listed_ok (PAct a k) -> mcong true (act L a).
  Proof.
    intros HQ s1 s2 S. unfold act. destruct (mc_w true _ (do_act L a) (wc_act _ _ _ _ L a HQ) s1 s2 S) as [E S'].
    destruct (on_w (do_act L a) s1) as [r1 s1'], (on_w (do_act L a) s2) as [r2 s2']. cbn [fst snd] in *. subst r2.
    destruct r1; cbn [fst snd]; (split; [reflexivity|]); [apply msim_note, S'|exact S'].
  Qed.
  Lemma mc_rt A (m : st runtime A) : mcong true (on_w (on_rt m)).
  Proof.
    intros s1 s2 S. pose proof (ms_rt _ _ S) as ER. unfold s_rt in ER. unfold on_w, on_rt. rewrite <- ER. destruct (m (w_rt (s_w s1))) as [x r]. cbn [fst snd].
    split; [reflexivity|]. destruct S as [[SD SR] A1 A2 A3 A4]. constructor; try assumption. split; [exact SD|reflexivity].
  Qed.
  Lemma mc_line e : mcong true (line e).
  Proof. intros s1 s2 S. unfold line. apply mc_rt, msim_note, S. Qed.
  Lemma mc_foreach eb A (f : A -> st mach unit) l : (forall a, mcong eb (f a)) -> mcong eb (foreach f l).
  Proof. intros H. induction l as [|x l IH]; cbn [foreach]; [apply mc_ret|]. apply mc_bind; [apply H|]. intros y. exact IH. Qed.
  Lemma mc_guard ls : mcong true (guard ls).
  Proof.
    intros s1 s2 S. unfold guard. destruct (mc_foreach true _ line ls mc_line s1 s2 S) as [E S']. destruct (foreach line ls s1) as [r1 s1'], (foreach line ls s2) as [r2 s2']. cbn [fst snd] in *. subst r2.
    destruct r1; (split; [reflexivity|exact S']).
  Qed.
  Lemma msim_upd_r s1 s2 f : msim true s1 s2 -> msim true (upd_r f s1) (upd_r f s2).
  Proof.
    intros S. pose proof (ms_rt _ _ S) as ER. unfold s_rt in ER. destruct S as [[SD SR] A1 A2 A3 A4]. constructor; try assumption. split; [exact SD|]. cbn. rewrite ER. reflexivity.
  Qed.
  Lemma msim_ctx s1 s2 f : msim true s1 s2 -> msim true (upd_ctx f s1) (upd_ctx f s2).
  Proof. apply msim_upd_r. Qed.
  Lemma mc_modify eb f : (forall s1 s2, msim eb s1 s2 -> msim eb (f s1) (f s2)) -> mcong eb (modify f).
  Proof. intros H s1 s2 S. split; [reflexivity|apply H, S]. Qed.
  Lemma mc_gets A (f : mach -> A) : (forall s1 s2, msim true s1 s2 -> f s1 = f s2) -> mcong true (gets f).
  Proof. intros H s1 s2 S. split; [cbn; f_equal; apply H, S|exact S]. Qed.
  Lemma ms_ctx s1 s2 : msim true s1 s2 -> s_ctx s1 = s_ctx s2.
  Proof. intros S. unfold s_ctx. rewrite (ms_rt _ _ S). reflexivity. Qed.
  Lemma mc_owner eb c : mcong eb (on_w (on_drv (get_owner c))).
  Proof. apply mc_w, wc_drv. unfold get_owner. apply dc_bind; [apply dc_get|]. intros o. apply dc_ret. Qed.
  Lemma mc_enter c : mcong true (enter c).
  Proof.
    unfold enter. apply mc_bind; [apply mc_gets; intros; f_equal; apply ms_ctx; assumption|]. intros ch. destruct ch; [|apply mc_modify; intros; apply msim_ctx; assumption].
    apply mc_bind; [apply mc_owner|]. intros o. apply mc_bind; [apply mc_gets; intros; f_equal; apply ms_ctx; assumption|]. intros cs.
    apply mc_bind; [apply mc_modify; intros; apply msim_ctx; assumption|]. intros _. destruct (_ || _)%bool; [apply mc_ret|apply mc_raise].
  Qed.
  Lemma mc_export ch c (m : st mach pyval) : mcong true m -> mcong true (with_export ch c m).
  Proof.
    intros Hm s1 s2 S. unfold with_export. destruct (mc_enter c s1 s2 S) as [E S']. destruct (enter c s1) as [r1 s1'], (enter c s2) as [r2 s2']. cbn [fst snd] in *. subst r2.
    destruct r1 as [[]|e]; [|split; [reflexivity|exact S']].
    destruct (Hm _ _ (msim_note true s1' s2' (OBody ch c (get_state (s_ctx s1')) (s_drv s1')) (OBody ch c (get_state (s_ctx s2')) (s_drv s2')) S')) as [E2 S2].
    destruct (m (note (OBody ch c (get_state (s_ctx s1')) (s_drv s1')) s1')) as [x1 t1], (m (note (OBody ch c (get_state (s_ctx s2')) (s_drv s2')) s2')) as [x2 t2]. cbn [fst snd] in *.
    split; [exact E2|apply msim_ctx, S2].
  Qed.
  Lemma msim_mods eb s1 s2 d : msim eb s1 s2 -> mods_all QM d -> msim eb (set_mods d s1) (set_mods d s2).
  Proof. intros [A1 A2 A3 A4 A5] H. constructor; auto. Qed.
  Lemma mc_fetch n : mcong true (fetch L n).
  Proof. unfold fetch. apply mc_bind; [apply mc_w, wc_drv, dc_get|]. intros x. apply mc_bind; [apply mc_lift|]. intros b. apply mc_lift. Qed.
  Lemma mc_load fuel ch n : (forall md, QM md -> mcong true (deeper L fuel (n :: ch) (m_init md))) -> mcong true (load L (deeper L fuel) ch n).
  Proof using HL.
    intros HI s1 s2 S. unfold load. rewrite <- (ms_mods _ _ _ S). set (d := dset n None (s_mods s1)).
    assert (H0 : mods_all QM d). { intros m md. unfold d. rewrite dget_dset. destruct (str_eqb m n); [discriminate|apply (ms_all _ _ _ S)]. }
    pose proof (msim_mods true _ _ d S H0) as S0.
    assert (HE : forall a b, msim true a b -> msim true (set_mods (ddel n (s_mods a)) a) (set_mods (ddel n (s_mods b)) b)).
    { intros a b SS. rewrite <- (ms_mods _ _ _ SS). apply msim_mods; [exact SS|]. intros m md'. rewrite dget_ddel. destruct (str_eqb m n); [discriminate|apply (ms_all _ _ _ SS)]. }
    assert (HJ : forall r1 u1 r2 u2, (let! md := fetch L n in deeper L fuel (n :: ch) (m_init md);; ret md) (set_mods d s1) = (r1, u1) ->
                 (let! md := fetch L n in deeper L fuel (n :: ch) (m_init md);; ret md) (set_mods d s2) = (r2, u2) -> r1 = r2 /\ msim true u1 u2 /\ forall md, r1 = Ok md -> QM md).
    { intros r1 u1 r2 u2. rewrite !bind_eq. destruct (mc_fetch n _ _ S0) as [E1 S1]. pose proof (fetch_ok L QM (proj1 HL) n (set_mods d s1)) as (_ & _ & HQ).
      destruct (fetch L n (set_mods d s1)) as [x1 t1], (fetch L n (set_mods d s2)) as [x2 t2]. cbn [fst snd] in *. subst x2.
      destruct x1 as [md|e]; [|intros X Y; injection X as <- <-; injection Y as <- <-; split; [reflexivity|split; [exact S1|discriminate]]].
      specialize (HQ md eq_refl). destruct (HI md HQ _ _ S1) as [E2 S2]. rewrite !bind_eq.
      destruct (deeper L fuel (n :: ch) (m_init md) t1) as [x1 w1], (deeper L fuel (n :: ch) (m_init md) t2) as [x2 w2]. cbn [fst snd] in *. subst x2.
      destruct x1 as [v|e]; cbn [ret]; intros X Y; injection X as <- <-; injection Y as <- <-; (split; [reflexivity|split; [exact S2|]]); [|discriminate].
      intros md' X. injection X as <-. exact HQ. }
    destruct ((let! md := fetch L n in deeper L fuel (n :: ch) (m_init md);; ret md) (set_mods d s1)) as [r1 u1].
    destruct ((let! md := fetch L n in deeper L fuel (n :: ch) (m_init md);; ret md) (set_mods d s2)) as [r2 u2].
    destruct (HJ _ _ _ _ eq_refl eq_refl) as (E2 & S2 & HQ). subst r2. destruct r1 as [md|e]; cbn [fst snd]; (split; [reflexivity|]); [|apply HE, S2].
    specialize (HQ md eq_refl). rewrite <- (ms_mods _ _ _ S2).
    assert (S3 : msim true (set_mods (dset n (Some md) (s_mods u1)) u1) (set_mods (dset n (Some md) (s_mods u1)) u2)).
    { apply msim_mods; [exact S2|]. intros m md'. rewrite dget_dset. destruct (str_eqb m n); [intros X; injection X as <-; exact HQ|apply (ms_all _ _ _ S2)]. }
    exact (msim_upd_r _ _ (fun r => set_loaded (rt_loaded r ++ [n]) r) S3).
  Qed.
  Ltac feed thm := eapply thm with (L := L) (Q := listed_ok) (QM := QM) (T := fun _ A _ m => mcong true m);
    [ exact (proj1 HL) | intros x0 md0 n0 f0 a0 c0 k0 _ Hh; apply (ma_func _ _ (proj2 HL _ _ Hh)) | intros md0 Hm; apply (ma_init _ _ Hm) | intros md0 f0 a0 _ Hm; apply (ma_ctor _ _ Hm) | intros md0 n0 f0 a0 c0 k0 _ Hm; apply (ma_func _ _ Hm)
    | intros lv A0 ch0 m0 H0; exact H0
    | intros lv A0 ch0 a0; apply mc_ret
    | intros lv A0 ch0 e0; apply mc_raise
    | intros lv A0 B0 ch0; apply mc_bind
    | intros lv A0 B0 ch0; apply mc_view
    | intros lv ch0 k0; apply mc_read
    | intros lv ch0 kd0 n0; apply mc_modify; intros; apply msim_note; assumption
    | intros lv ch0 n0; apply mc_modify; intros s1 s2 [A1 A2 A3 A4 A5]; constructor; cbn; try assumption; rewrite A3; reflexivity
    | intros lv ch0 a0 k0 HQ; eapply mc_act; exact HQ
    | intros lv ch0 e0 k0 HQ; apply mc_line
    | intros lv ch0 ls0 ok0 k0 HQ; apply mc_guard
    | intros lv ch0 c0 m0 _; apply mc_export
    | exact mc_load
    | intros fu0 ch0 c0 fn0 ar0 k0 md0 f0 _ _ _ _ H0; exact H0
    | intros fu0 ch0 c0 fn0 ar0 k0 md0 f0 _ _ _ H0; apply mc_bind; [apply mc_modify; intros; apply msim_note; assumption|intros _; exact H0]
    | .. ].
  Theorem run_sim fuel ch p : each listed_ok p -> mcong true (run L fuel ch p).
  Proof using HL. intros HP. feed T_run; exact HP. Qed.
  Theorem import_sim fuel kind ch n : mcong true (plain_import L (deeper L fuel) kind ch n).
  Proof using HL. feed T_top_import. Qed.
  Theorem call_sim fuel ch c fn args : mcong true (call L (deeper L fuel) ch c fn args).
  Proof using HL. feed T_top_call. instantiate (1 := fun _ => PRet VNone). exact I. Qed.

  (** *** Preparing: the base of the context is overwritten *)
  Variables (fuel : nat) (g : cfg) (t : txn).
  Lemma mc_admission eb : mcong eb (admission g t).
  Proof.
    unfold admission. destruct (metered g t); [|apply mc_ret]. apply mc_bind; [|intros bal; apply mc_bind; [apply mc_lift|intros b; apply mc_lift]].
    destruct (g_bypass_balance g); [apply mc_ret|]. apply mc_bind; [apply mc_read|intros b; apply mc_lift].
  Qed.
  Lemma msim_weak s1 s2 : msim true s1 s2 -> msim false s1 s2.
  Proof. intros [[A0 A1] A2 A3 A4 A5]. constructor; auto. split; [exact A0|]. cbn [rnorm] in A1. rewrite A1. reflexivity. Qed.
  Lemma msim_any b s1 s2 : msim true s1 s2 -> msim b s1 s2.
  Proof. destruct b; [auto|apply msim_weak]. Qed.
  Lemma mc_env eb e : mcong eb (modify (upd_r (fun r => set_env (dupdate (rt_env r) e) r))).
  Proof.
    apply mc_modify. intros s1 s2 [[A0 A1] A2 A3 A4 A5]. constructor; auto. split; [exact A0|]. cbn. destruct (rnorm_eq _ _ _ A1) as (E1 & E2 & E3 & E4 & E5 & E6 & E7).
    apply rnorm_intro; cbn; auto; [rewrite E3; reflexivity|]. intros X. unfold s_rt in *. rewrite (E7 X). reflexivity.
  Qed.
  (** same result; the states are related up to the base, and completely if the result is Ok *)
  Definition pcong {A} (m : st mach A) : Prop := forall s1 s2, msim false s1 s2 -> fst (m s1) = fst (m s2) /\ msim (is_ok (fst (m s1))) (snd (m s1)) (snd (m s2)).
  Lemma pc_bind A B (m : st mach A) (k : A -> st mach B) : pcong m -> (forall a, mcong true (k a)) -> pcong (bind m k).
  Proof.
    intros Hm Hk v1 v2 H. unfold bind. destruct (Hm v1 v2 H) as [E S]. destruct (m v1) as [r1 v1'], (m v2) as [r2 v2']. cbn [fst snd] in *. subst r2.
    destruct r1 as [a|e]; [|split; [reflexivity|exact S]]. destruct (Hk a _ _ S) as [E2 S2]. split; [exact E2|]. apply msim_any, S2.
  Qed.
  Lemma pc_first A B (m : st mach A) (k : A -> st mach B) : mcong false m -> (forall a, pcong (k a)) -> pcong (bind m k).
  Proof.
    intros Hm Hk v1 v2 H. unfold bind. destruct (Hm v1 v2 H) as [E S]. destruct (m v1) as [r1 v1'], (m v2) as [r2 v2']. cbn [fst snd] in *. subst r2.
    destruct r1 as [a|e]; [apply Hk, S|split; [reflexivity|exact S]].
  Qed.
  Lemma pc_base : pcong (base_context t).
  Proof.
    unfold base_context. apply pc_first; [apply mc_owner|]. intros o s1' s2' S'. rewrite !bind_eq. cbn [modify].
    set (f := fun c => mkCtx (cx_stack c) (mkCs (Some (t_contract t)) (Some (t_sender t)) (Some (t_sender t)) o (Some (t_contract t, t_function t)) VNone)).
    assert (S2 : msim true (upd_ctx f s1') (upd_ctx f s2')).
    { destruct S' as [[A0 A1] A2 A3 A4 A5]. constructor; auto. split; [exact A0|]. destruct (rnorm_eq _ _ _ A1) as (E1 & E2 & E3 & E4 & E5 & E6 & _).
      apply rnorm_intro; cbn; auto. }
    assert (C : mcong true (let! cs := gets (fun s => get_state (s_ctx s)) in if (is_none (c_owner cs) || is_owner (c_owner cs) (c_caller cs))%bool then ret tt else raise EException)).
    { apply mc_bind; [apply mc_gets; intros; f_equal; apply ms_ctx; assumption|]. intros cs. destruct (_ || _)%bool; [apply mc_ret|apply mc_raise]. }
    destruct (C _ _ S2) as [E4 S4]. split; [exact E4|]. apply msim_any, S4.
  Qed.
  Lemma pc_prepare : pcong (prepare L fuel g t).
  Proof using HL.
    unfold prepare. apply pc_first; [apply mc_admission|intros _]. apply pc_first; [apply mc_env|intros _].
    apply pc_bind; [apply pc_base|intros _]. apply mc_bind.
    - unfold find_function. apply mc_bind; [apply import_sim|intros _]. apply mc_bind; [apply mc_gets; intros; rewrite (ms_mods _ _ _ H); reflexivity|].
      intros f. destruct (match f with Some md => md | None => l_host L (t_contract t) end) as [md|]; [|apply mc_raise]. destruct (dget _ _); [apply mc_ret|apply mc_raise].
    - intros _. apply mc_bind; [|intros _; apply mc_lift]. unfold submission_name. destruct (str_eqb _ _); [|apply mc_ret]. apply mc_modify. intros. apply msim_ctx; assumption.
  Qed.
  Lemma pc_entry : pcong (let! kw := prepare L fuel g t in fun s => entry_call L fuel t kw (primed g t s)).
  Proof using HL.
    apply pc_bind; [apply pc_prepare|]. intros kw s1 s2 S. apply call_sim. unfold primed. apply msim_upd_r. destruct S as [A0 A1 A2 A3 A4]. constructor; auto.
  Qed.
  End Saved.
End Mach.

(** ** Committing, and the end of a transaction *)
Section End.
  Variables (RE DE CE : Prop) (L : lang).
  Notation QM := (module_all (listed_ok DE CE)).
  Hypothesis HL : lang_all QM L.
  Lemma commit_eq v : commit v = (fst (commit_all (dv_writes v) (dv_disk v)),
    let v' := set_disk (snd (commit_all (dv_writes v) (dv_disk v))) v in
    match fst (commit_all (dv_writes v) (dv_disk v)) with Ok _ => set_reads [] (set_writes [] (set_cache [] v')) | Err _ => v' end).
  Proof.
    unfold commit. rewrite bind_eq. cbn [gets]. rewrite bind_eq. unfold on_disk. destruct (commit_all (dv_writes v) (dv_disk v)) as [[[]|e] d]; reflexivity.
  Qed.
  Lemma settled_plain v1 v2 k : dv_bypass v1 = dv_bypass v2 -> dv_cache v1 = dv_cache v2 -> dv_disk v1 = dv_disk v2 -> settled v1 k = settled v2 k.
  Proof. intros. apply settled_same; assumption. Qed.
  Lemma commit_sim saved v1 v2 : DE -> dsim RE DE CE saved v1 v2 ->
    fst (commit v1) = fst (commit v2) /\ dv_disk (snd (commit v1)) = dv_disk (snd (commit v2)) /\ dv_bypass (snd (commit v1)) = dv_bypass (snd (commit v2)) /\
    (is_ok (fst (commit v1)) = true -> dsim RE DE CE [] (snd (commit v1)) (snd (commit v2))).
  Proof.
    intros HD H. rewrite !commit_eq. cbn [fst snd]. rewrite <- (ds_writes _ _ _ _ _ _ H), <- (ds_disk _ _ _ _ _ _ H HD). pose proof (ds_bypass _ _ _ _ _ _ H) as HB.
    destruct (commit_all (dv_writes v1) (dv_disk v1)) as [[[]|e] d]; cbn [fst snd is_ok]; (split; [reflexivity|split; [reflexivity|split; [exact HB|]]]); [|discriminate].
    intros _. constructor; cbn [dv_writes dv_reads dv_txn dv_events dv_cache dv_disk dv_bypass set_reads set_writes set_cache set_disk]; try reflexivity; try apply H.
    - intros k. apply settled_plain; auto.
    - intros k [X|[X|X]]; exfalso; apply X; reflexivity.
    - intros k [X|[X|X]]; exfalso; apply X; reflexivity.
  Qed.
  Lemma flush_sim v1 v2 : dv_disk v1 = dv_disk v2 -> dv_bypass v1 = dv_bypass v2 -> dsim RE DE CE [] (flush_cache v1) (flush_cache v2).
  Proof.
    intros HD HB. constructor; cbn [flush_cache dv_writes dv_reads dv_txn dv_events dv_cache dv_disk dv_bypass]; try reflexivity; auto.
    - intros k. apply settled_plain; auto.
    - intros k [X|[X|X]]; exfalso; apply X; reflexivity.
    - intros k [X|[X|X]]; exfalso; apply X; reflexivity.
  Qed.
  Lemma sound_forget saved v : sound saved v -> sound [] v.
  Proof. intros H k [X|X]; [exfalso; apply X; reflexivity|apply H; auto]. Qed.
  Lemma dsim_forget saved v1 v2 : dsim RE DE CE saved v1 v2 -> dsim RE DE CE [] v1 v2.
  Proof. intros [A1 A2 A3 A4 A5 A6 A7 A8 A9 A10]. constructor; auto; eapply sound_forget; eassumption. Qed.
  Lemma sound_restore saved v : sound saved v -> sound [] (set_writes saved v).
  Proof. intros H k X. rewrite (settled_same v) by reflexivity. apply H. cbn [dv_writes dv_reads set_writes] in X. destruct X as [X|[X|X]]; [exfalso; apply X; reflexivity|left; exact X|right; right; exact X]. Qed.
  Lemma dsim_restore saved v1 v2 : dsim RE DE CE saved v1 v2 -> dsim RE DE CE [] (set_writes saved v1) (set_writes saved v2).
  Proof.
    intros [A1 A2 A3 A4 A5 A6 A7 A8 A9 A10]. constructor; auto; try (apply sound_restore; assumption).
  Qed.
  Lemma finally_d saved v1 v2 : dsim RE DE CE saved v1 v2 -> dsim RE DE CE saved (clear_transaction_writes (clear_events v1)) (clear_transaction_writes (clear_events v2)).
  Proof. intros H. apply dsim_txn, dsim_events, H. Qed.
  Notation msim := (msim RE DE CE).
  (** parts of the machine other than the driver *)
  Lemma msim_drv saved saved' eb s1 s2 f1 f2 : msim saved eb s1 s2 -> dsim RE DE CE saved' (f1 (s_drv s1)) (f2 (s_drv s2)) -> msim saved' eb (upd_d f1 s1) (upd_d f2 s2).
  Proof. intros [[A0 A1] A2 A3 A4 A5] H. constructor; auto. split; [exact H|exact A1]. Qed.
  Lemma msim_tracer saved eb s1 s2 f : msim saved eb s1 s2 -> msim saved eb (upd_r (fun r => set_tracer (f (rt_tracer r)) r) s1) (upd_r (fun r => set_tracer (f (rt_tracer r)) r) s2).
  Proof.
    intros [[A0 A1] A2 A3 A4 A5]. constructor; auto. split; [exact A0|]. destruct (rnorm_eq _ _ _ A1) as (E1 & E2 & E3 & E4 & E5 & E6 & E7).
    apply rnorm_intro; cbn; auto; [rewrite E1; reflexivity|]. intros X. rewrite (E7 X). reflexivity.
  Qed.
  Variables (fuel : nat) (g : cfg) (t : txn).
  Hypothesis HA : t_auto t = true -> DE.
  Lemma msim_restricted saved eb s1 s2 b : msim saved eb s1 s2 -> msim saved eb (set_restricted b s1) (set_restricted b s2).
  Proof. intros [A0 A1 A2 A3 A4]. constructor; auto. Qed.
  Lemma msim_stopped saved eb s1 s2 : msim saved eb s1 s2 -> msim saved eb (stopped s1) (stopped s2).
  Proof. intros H. apply msim_restricted, (msim_tracer _ _ _ _ tr_stop), H. Qed.
  Lemma restore_ok saved eb s1 s2 v : msim saved eb s1 s2 -> msim [] eb (restore t saved (Ok v) s1) (restore t saved (Ok v) s2).
  Proof.
    intros H. unfold restore, finally. apply (msim_tracer _ _ _ _ tr_stop). eapply msim_drv; [exact H|]. eapply dsim_forget, finally_d, H.
  Qed.
  Lemma restore_err saved eb s1 s2 e : msim saved eb s1 s2 -> msim [] eb (restore t saved (Err e) s1) (restore t saved (Err e) s2).
  Proof using HA.
    intros H. unfold restore, finally. apply (msim_tracer _ _ _ _ tr_stop). unfold revert. eapply msim_drv with (saved := []); [|apply finally_d].
    - eapply msim_drv; [exact H|]. destruct H as [[H _] _ _ _ _]. destruct (t_auto t) eqn:A; [|apply dsim_restore, H].
      apply flush_sim; cbn; [apply (ds_disk _ _ _ _ _ _ H), HA; reflexivity|apply H].
    - unfold s_drv, upd_d, upd_w, upd_drv. cbn [s_w set_w w_drv]. destruct H as [[H _] _ _ _ _]. destruct (t_auto t) eqn:A; [|apply dsim_restore, H].
      apply flush_sim; cbn; [apply (ds_disk _ _ _ _ _ _ H), HA; reflexivity|apply H].
  Qed.
  (** the try block, and what is restored after it *)
  Lemma attempt_sim saved s1 s2 : msim saved false s1 s2 ->
    let r1 := fst (attempt L fuel g t s1) in let r2 := fst (attempt L fuel g t s2) in
    let t1 := snd (attempt L fuel g t s1) in let t2 := snd (attempt L fuel g t s2) in
    r1 = r2 /\ msim [] false (restore t saved r1 t1) (restore t saved r2 t2) /\ (t_auto t = false -> msim [] false (finally t1) (finally t2)).
  Proof using HL HA.
    intros S. cbv zeta. destruct (attempt L fuel g t s1) as [r1 t1] eqn:E1, (attempt L fuel g t s2) as [r2 t2] eqn:E2. cbn [fst snd].
    rewrite attempt_eq, bind_eq in E1, E2. destruct (pc_prepare RE DE CE L HL saved fuel g t s1 s2 S) as [EP SP].
    destruct (prepare L fuel g t s1) as [p1 u1], (prepare L fuel g t s2) as [p2 u2]. cbn [fst snd] in *. subst p2.
    assert (HF : forall a b, msim saved false a b -> msim [] false (finally a) (finally b)) by (intros a b H; apply (restore_ok saved false a b (VNone, [], []) H)).
    destruct p1 as [kw|e]; cbn [is_ok] in *; [|injection E1 as <- <-; injection E2 as <- <-; split; [reflexivity|split; [apply restore_err, SP|intros _; apply HF, SP]]].
    assert (CE2 : forall s, call_entry L fuel g t kw s = let (r, s') := entry_call L fuel t kw (primed g t s) in
      match r with Ok v => let (x, s3) := (if t_auto t then on_w (on_drv commit) else ret tt) (stopped s') in
                           (match x with Ok _ => Ok (v, dv_txn (s_drv s'), dv_events (s_drv s')) | Err e => Err e end, s3)
      | Err e => (Err e, s') end).
    { intros s. unfold call_entry. rewrite bind_eq. cbn [modify]. rewrite bind_eq. cbn [modify]. fold (primed g t s). rewrite bind_eq. fold (entry_call L fuel t kw).
      destruct (entry_call L fuel t kw (primed g t s)) as [[v|e] s']; [|reflexivity]. rewrite bind_eq. cbn [gets]. rewrite bind_eq. cbn [modify]. rewrite bind_eq. cbn [modify]. rewrite bind_eq. fold (stopped s').
      destruct ((if t_auto t then on_w (on_drv commit) else ret tt) (stopped s')) as [[[]|e] s3]; reflexivity. }
    rewrite CE2 in E1, E2. clear CE2.
    assert (SC : msim saved true (primed g t u1) (primed g t u2)) by (unfold primed; apply msim_upd_r, msim_restricted, SP).
    destruct (call_sim RE DE CE L HL saved fuel [] (t_contract t) (t_function t) kw _ _ SC) as [EC SC']. fold (entry_call L fuel t kw) in EC, SC'.
    destruct (entry_call L fuel t kw (primed g t u1)) as [c1 v1], (entry_call L fuel t kw (primed g t u2)) as [c2 v2]. cbn [fst snd] in *. subst c2.
    apply msim_weak in SC'. destruct c1 as [v|e]; [|injection E1 as <- <-; injection E2 as <- <-; split; [reflexivity|split; [apply restore_err, SC'|intros _; apply HF, SC']]].
    pose proof (msim_stopped _ _ _ _ SC') as ST. assert (ED : dv_txn (s_drv v1) = dv_txn (s_drv v2) /\ dv_events (s_drv v1) = dv_events (s_drv v2)) by (destruct SC' as [[X _] _ _ _ _]; split; apply X).
    destruct ED as [ED1 ED2]. rewrite <- ED1, <- ED2 in E2. clear ED1 ED2.
    destruct (t_auto t) eqn:A.
    - destruct (commit_sim saved (s_drv (stopped v1)) (s_drv (stopped v2)) (HA eq_refl) (proj1 (ms_w _ _ _ _ _ _ _ ST))) as (C1 & C2 & C3 & C4).
      unfold on_w, on_drv in E1, E2. fold (s_drv (stopped v1)) in E1. fold (s_drv (stopped v2)) in E2. destruct (commit (s_drv (stopped v1))) as [x1 d1], (commit (s_drv (stopped v2))) as [x2 d2]. cbn [fst snd] in *. subst x2.
      injection E1 as E1 E1'. injection E2 as E2 E2'.
      assert (HM : forall saved', dsim RE DE CE saved' d1 d2 -> msim saved' false t1 t2).
      { intros saved' HD. subst t1 t2. exact (msim_drv saved saved' false (stopped v1) (stopped v2) (fun _ => d1) (fun _ => d2) ST HD). }
      destruct x1 as [[]|e]; subst r1 r2; (split; [reflexivity|split; [|intros X; discriminate X]]).
      + unfold restore, finally. apply (msim_tracer _ _ _ _ tr_stop). pose proof (HM [] (C4 eq_refl)) as H. eapply msim_drv; [exact H|]. apply finally_d, H.
      + unfold restore, finally. apply (msim_tracer _ _ _ _ tr_stop). unfold revert. rewrite A.
        assert (EF : forall d s, upd_d (fun v => clear_transaction_writes (clear_events v)) (upd_d (fun v => flush_cache (set_writes saved v)) (upd_d (fun _ => d) s)) = upd_d (fun _ => clear_transaction_writes (clear_events (flush_cache (set_writes saved d)))) s) by reflexivity.
        subst t1 t2. change (msim [] false (upd_d (fun v => clear_transaction_writes (clear_events v)) (upd_d (fun v => flush_cache (set_writes saved v)) (upd_d (fun _ => d1) (stopped v1))))
           (upd_d (fun v => clear_transaction_writes (clear_events v)) (upd_d (fun v => flush_cache (set_writes saved v)) (upd_d (fun _ => d2) (stopped v2))))). rewrite !EF. eapply msim_drv; [exact ST|]. apply finally_d.
        apply flush_sim; [exact C2|exact C3].
    - injection E1 as <- <-. injection E2 as <- <-. split; [reflexivity|split; [apply (restore_ok saved), ST|intros _; apply HF, ST]].
  Qed.
  Definition good {A} (r : result A) : bool := (negb (t_auto t) || is_ok r)%bool.
  Lemma fee_sim used w s1 s2 : msim [] false s1 s2 ->
    fst (charge_fee L g t used w s1) = fst (charge_fee L g t used w s2) /\
    (good (fst (charge_fee L g t used w s1)) = true -> msim [] false (snd (charge_fee L g t used w s1)) (snd (charge_fee L g t used w s2))).
  Proof using HA.
    intros S. unfold charge_fee. destruct (metered g t); [|split; [reflexivity|intros _; exact S]].
    pose (pre := let! fee := lift (if Z.eqb (t_rate t) 0 then Err EDivisionByZero else cd_of_float (l_fdiv L used (t_rate t))) in
      let! bal := on_w (on_drv (get (balance_key g t))) in let! x := lift (minus_fee bal fee) in on_w (set (balance_key g t) (max0 x) false);; ret x).
    assert (HP : mcong RE DE CE [] false pre).
    { unfold pre. apply mc_bind; [apply mc_lift|]. intros fee. apply mc_bind; [apply mc_read|]. intros bal. apply mc_bind; [apply mc_lift|]. intros x.
      apply mc_bind; [apply mc_w, wc_set|]. intros _. apply mc_ret. }
    assert (EQ : forall s, (let! fee := lift (if Z.eqb (t_rate t) 0 then Err EDivisionByZero else cd_of_float (l_fdiv L used (t_rate t))) in
      let! bal := on_w (on_drv (get (balance_key g t))) in let! x := lift (minus_fee bal fee) in on_w (set (balance_key g t) (max0 x) false);;
      (if t_auto t then on_w (on_drv commit) else ret tt);; ret (dset (balance_key g t) (max0 x) w)) s =
      (let! x := pre in (if t_auto t then on_w (on_drv commit) else ret tt);; ret (dset (balance_key g t) (max0 x) w)) s).
    { intros s. unfold pre. rewrite !bind_eq. cbn [lift]. destruct (if Z.eqb _ _ then _ else _) as [fee|e]; [|reflexivity]. rewrite !bind_eq.
      destruct (on_w (on_drv (get (balance_key g t))) s) as [[bal|e] s']; [|reflexivity]. rewrite !bind_eq. cbn [lift]. destruct (minus_fee bal fee) as [x|e]; [|reflexivity]. rewrite !bind_eq.
      destruct (on_w (set (balance_key g t) (max0 x) false) s') as [[[]|e] s'']; reflexivity. }
    rewrite !EQ. clear EQ. rewrite !bind_eq. destruct (HP _ _ S) as [E1 S1]. destruct (pre s1) as [r1 u1], (pre s2) as [r2 u2]. cbn [fst snd] in *. subst r2. clear HP pre.
    destruct r1 as [x|e]; [|split; [reflexivity|intros _; exact S1]]. rewrite !bind_eq. unfold good. destruct (t_auto t) eqn:A; [|split; [reflexivity|intros _; exact S1]].
    destruct (commit_sim [] (s_drv u1) (s_drv u2) (HA eq_refl) (proj1 (ms_w _ _ _ _ _ _ _ S1))) as (C1 & C2 & C3 & C4).
    unfold on_w, on_drv. fold (s_drv u1). fold (s_drv u2). destruct (commit (s_drv u1)) as [x1 d1], (commit (s_drv u2)) as [x2 d2]. cbn [fst snd] in *. subst x2.
    destruct x1 as [[]|e]; cbn [ret fst snd is_ok negb orb]; (split; [reflexivity|]); [|discriminate].
    intros _. exact (msim_drv [] [] false u1 u2 (fun _ => d1) (fun _ => d2) S1 (C4 eq_refl)).
  Qed.
  Lemma msim_wind saved s1 s2 : msim saved false s1 s2 -> msim saved false (wind_up s1) (wind_up s2).
  Proof.
    intros [[A0 A1] A2 A3 A4 A5]. destruct (rnorm_eq _ _ _ A1) as (E1 & E2 & E3 & E4 & E5 & E6 & _). unfold wind_up. constructor; cbn; auto.
    - split; [exact A0|]. apply rnorm_intro; cbn; auto. discriminate.
    - unfold s_rt. rewrite A2, E4. reflexivity.
    - apply (filter_mods_all _ (fun k => negb (str_mem k (rt_loaded (s_rt s1))))), A5.
  Qed.
  Lemma stamps_sim saved s1 s2 : msim saved false s1 s2 -> stamps_used t s1 = stamps_used t s2.
  Proof. intros [[A0 A1] A2 A3 A4 A5]. destruct (rnorm_eq _ _ _ A1) as (E1 & _). unfold stamps_used, s_rt. rewrite E1. reflexivity. Qed.
  Lemma transact_eq saved s : transact L fuel g t saved s =
    let (r, s1) := attempt L fuel g t s in
    match r with
    | Err EBase => (Err EBase, finally s1)
    | _ => let s2 := restore t saved r s1 in let used := stamps_used t s2 in
      let (w, s3) := charge_fee L g t used (written r) s2 in
      match w with
      | Err e => (Err e, s3)
      | Ok w => (Ok (mkOut (match r with Ok _ => 0%Z | Err _ => 1%Z end) (match r with Ok (v, _, _) => Ok v | Err e => Err e end) used w (dv_reads (s_drv s3)) (match r with Ok (_, _, e) => e | Err _ => [] end)), wind_up s3)
      end
    end.
  Proof.
    unfold transact, restore, written. destruct (attempt L fuel g t s) as [[[[v w] ev]|e] s1]; [|destruct e; try reflexivity]; cbv zeta;
      match goal with |- context [charge_fee ?a ?b ?c ?d ?e ?f] => destruct (charge_fee a b c d e f) as [[w'|e'] s3]; reflexivity end.
  Qed.
  Lemma transact_sim saved s1 s2 : msim saved false s1 s2 ->
    let r1 := transact L fuel g t saved s1 in let r2 := transact L fuel g t saved s2 in
    same_report (fst r1) (fst r2) /\ (good (fst r1) = true -> msim [] false (snd r1) (snd r2) /\ (RE -> reported_reads (fst r1) = reported_reads (fst r2))).
  Proof using HA HL.
    intros S. cbv zeta. rewrite !transact_eq. destruct (attempt_sim saved s1 s2 S) as (ER & SR & SF). cbv zeta in *.
    destruct (attempt L fuel g t s1) as [r1 t1], (attempt L fuel g t s2) as [r2 t2]. cbn [fst snd] in *. subst r2.
    assert (EB : forall r, let s2a := restore t saved r t1 in let s2b := restore t saved r t2 in
      msim [] false s2a s2b ->
      let o s2 := let used := stamps_used t s2 in let (w, s3) := charge_fee L g t used (written r) s2 in
        match w with
        | Err e => (Err e, s3)
        | Ok w => (Ok (mkOut (match r with Ok _ => 0%Z | Err _ => 1%Z end) (match r with Ok (v, _, _) => Ok v | Err e => Err e end) used w (dv_reads (s_drv s3)) (match r with Ok (_, _, e) => e | Err _ => [] end)), wind_up s3)
        end in
      same_report (fst (o s2a)) (fst (o s2b)) /\ (good (fst (o s2a)) = true -> msim [] false (snd (o s2a)) (snd (o s2b)) /\ (RE -> reported_reads (fst (o s2a)) = reported_reads (fst (o s2b))))).
    { intros r. cbv beta zeta. intros SS. cbv beta. rewrite <- (stamps_sim _ _ _ SS). set (used := stamps_used t (restore t saved r t1)). destruct (fee_sim used (written r) _ _ SS) as [F1 F2].
      destruct (charge_fee L g t used (written r) (restore t saved r t1)) as [w1 u1], (charge_fee L g t used (written r) (restore t saved r t2)) as [w2 u2]. cbn [fst snd] in *. subst w2.
      destruct w1 as [w|e]; cbn [fst snd same_report o_status o_result o_stamps o_writes o_events reported_reads o_reads].
      - split; [auto|]. intros _. assert (G : good (Ok w : result (dict pyval)) = true) by (unfold good; cbn [is_ok]; rewrite Bool.orb_true_r; reflexivity).
        specialize (F2 G). split; [apply msim_wind, F2|]. intros HR. apply (ds_reads _ _ _ _ _ _ (proj1 (ms_w _ _ _ _ _ _ _ F2)) HR).
      - split; [reflexivity|]. intros G. split; [apply F2, G|reflexivity]. }
    destruct r1 as [x|e]; [apply EB, SR|]. destruct e; try (apply (EB (Err _)), SR).
    cbn [fst snd same_report reported_reads]. split; [reflexivity|]. unfold good. cbn [is_ok]. rewrite Bool.orb_false_r. intros G. apply Bool.negb_true_iff in G. split; [apply SF, G|reflexivity].
  Qed.
  Lemma msim_alike s1 s2 : msim [] false s1 s2 -> alike s1 s2.
  Proof.
    intros [[[A1 A2 A3 A4 A5 A6 A7 A8 A9 A10] B] C1 C2 C3 C4]. destruct (rnorm_eq _ _ _ B) as (E1 & E2 & E3 & E4 & E5 & E6 & _).
    constructor; auto. constructor; auto; intros k Hk; [apply A6|apply A7]; tauto.
  Qed.
  Lemma alike_msim s1 s2 : alike s1 s2 -> mods_all QM (s_mods s1) -> (RE -> dv_reads (s_drv s1) = dv_reads (s_drv s2)) -> (DE -> dv_disk (s_drv s1) = dv_disk (s_drv s2)) -> (CE -> dv_cache (s_drv s1) = dv_cache (s_drv s2)) ->
    msim (dv_writes (s_drv s1)) false (began s1) (began s2).
  Proof.
    intros [[A1 A2 A3 A4 A5] B1 B2 B3 B4 B5 B6 B7 B8] HQ HR HD HC. constructor; auto.
    split; [|apply rnorm_intro; auto; discriminate]. constructor; auto; [intros k; rewrite (settled_same (s_drv s1) (w_drv (s_w (began s1)))), (settled_same (s_drv s2) (w_drv (s_w (began s2)))) by reflexivity; exact (A2 k)|intros k Hk..].
    - rewrite (settled_same (s_drv s1)) by reflexivity. apply A4. cbn in Hk. unfold s_drv in *. tauto.
    - rewrite (settled_same (s_drv s2)) by reflexivity. apply A5. cbn in Hk. unfold s_drv in *. rewrite A1 in Hk. tauto.
  Qed.
  Theorem execute_sim s1 s2 : alike s1 s2 -> mods_all QM (s_mods s1) -> (RE -> dv_reads (s_drv s1) = dv_reads (s_drv s2)) -> (DE -> dv_disk (s_drv s1) = dv_disk (s_drv s2)) -> (CE -> dv_cache (s_drv s1) = dv_cache (s_drv s2)) ->
    let r1 := execute L fuel g t s1 in let r2 := execute L fuel g t s2 in
    same_report (fst r1) (fst r2) /\
    (clean_end t (fst r1) -> alike (snd r1) (snd r2) /\ mods_all QM (s_mods (snd r1)) /\ (RE -> reported_reads (fst r1) = reported_reads (fst r2) /\ dv_reads (s_drv (snd r1)) = dv_reads (s_drv (snd r2))) /\
      (DE -> dv_disk (s_drv (snd r1)) = dv_disk (s_drv (snd r2))) /\ (CE -> dv_cache (s_drv (snd r1)) = dv_cache (s_drv (snd r2)))).
  Proof using HA HL.
    intros H1 H2 H3 H4 H5. cbv zeta. pose proof (alike_msim _ _ H1 H2 H3 H4 H5) as S. unfold execute. cbv zeta. change (dv_writes (s_drv (fresh_log s1))) with (dv_writes (s_drv s1)). change (dv_writes (s_drv (fresh_log s2))) with (dv_writes (s_drv s2)).
    fold (began s1). fold (began s2). rewrite <- (rs_writes _ _ (al_drv _ _ H1)).
    assert (HG : forall b (r : result output) u1 u2, b = true -> msim [] b u1 u2 \/ msim [] false u1 u2 -> True) by auto. clear HG.
    assert (FIN : forall u1 u2, msim [] false u1 u2 -> alike u1 u2 /\ mods_all QM (s_mods u1) /\ (RE -> dv_reads (s_drv u1) = dv_reads (s_drv u2)) /\ (DE -> dv_disk (s_drv u1) = dv_disk (s_drv u2)) /\ (CE -> dv_cache (s_drv u1) = dv_cache (s_drv u2))).
    { intros u1 u2 SS. split; [apply msim_alike, SS|]. split; [apply (ms_all _ _ _ _ _ _ _ SS)|]. destruct (ms_w _ _ _ _ _ _ _ SS) as [D _]. split; [apply D|split; apply D]. }
    destruct (refused g t).
    - cbn [fst snd same_report reported_reads]. split; [reflexivity|]. intros _.
      destruct (FIN (began s1) (began s2)) as (F1 & F2 & F3 & F4 & F5); [|auto 10].
      destruct S as [[D R] C1 C2 C3 C4]. constructor; auto. split; [eapply dsim_forget, D|exact R].
    - destruct (transact_sim _ _ _ S) as [T1 T2]. cbv zeta in *. split; [exact T1|]. intros HC.
      assert (G : good (fst (transact L fuel g t (dv_writes (s_drv s1)) (began s1))) = true).
      { unfold good. destruct HC as [->|(out & ->)]; [reflexivity|]. cbn [is_ok]. apply Bool.orb_true_r. }
      destruct (T2 G) as [T3 T4]. destruct (FIN _ _ T3) as (F1 & F2 & F3 & F4 & F5). split; [exact F1|]. split; [exact F2|]. split; [|split; assumption]. intros HR. split; [apply T4, HR|apply F3, HR].
  Qed.
End End.
