(** * Saving pending writes early or late *)
From Verif Require Import Model.Base Model.State Model.Value Model.Encoder Model.Hdf5 Model.Runtime Model.Driver.
From Verif Require Import Spec.EncSpec Spec.DriverSpec Spec.BatchSpec.
From Verif Require Import Proofs.BaseFacts Proofs.EncFacts Proofs.DiskFacts Proofs.DriverFacts Proofs.ReachFacts Proofs.SimFacts.
From Coq Require Import Lia.

Lemma Forall_dset {V} (P : pystr * V -> Prop) k x d : P (k, x) -> Forall P d -> Forall P (dset k x d).
Proof.
  intros HP. induction 1 as [|[j y] d H1 H2 IH]; cbn [dset]; [auto|]. destruct (str_eqb_spec k j) as [<-|]; [|auto]. constructor; [|exact H2]. exact HP.
Qed.
Section Batch.
  Variable U : pystr -> Prop.
  Hypothesis HU : separate U.
  Hypothesis HK : forall k, U k -> key_ok k.
  Definition pend (k : pystr) (v : driver) : pyval := pget k (dv_writes v).
  Definition all_pending (v : driver) : Prop := Forall (fun kv => U (fst kv) /\ storable (snd kv) /\ snd kv <> VNone) (dv_writes v).
  (** what the disk of the run that saves holds under k when k is not pending there *)
  Definition due (k : pystr) (v0 : driver) : result pyval := if is_none (pend k v0) then fresh_read (dv_disk v0) k else stored_form (pend k v0).
  (** [v0] never saves, [v] saves *)
  Record agree (v0 v : driver) : Prop := mkAgree {
    ag_b0 : dv_bypass v0 = false; ag_c0 : dv_cache v0 = []; ag_all0 : all_pending v0; ag_nd0 : NoDup (dkeys (dv_writes v0));
    ag_shape : shape v; ag_all : all_pending v;
    ag_key : forall k, U k ->
      (pend k v <> VNone /\ pend k v = pend k v0) \/
      (pend k v = VNone /\ fresh_read (dv_disk v) k = due k v0 /\ (pget k (dv_cache v) = VNone \/ (pget k (dv_cache v) = pend k v0)));
    ag_r0 : forall k, U k -> pget k (dv_reads v0) <> VNone -> exists x, find k v0 = Ok x;
    ag_r : forall k, U k -> pget k (dv_reads v) <> VNone -> exists x, find k v = Ok x }.
  Lemma pend_cases v k : all_pending v -> (pend k v = VNone /\ dget k (dv_writes v) = None) \/ (dget k (dv_writes v) = Some (pend k v) /\ pend k v <> VNone /\ storable (pend k v)).
  Proof using.
    intros HA. unfold pend, pget. destruct (dget k (dv_writes v)) as [x|] eqn:E; [right|left; auto]. apply dget_In in E.
    unfold all_pending in HA. rewrite Forall_forall in HA. destruct (HA _ E) as (_ & H1 & H2). auto.
  Qed.
  Lemma find_now k v : dv_bypass v = false -> find k v = if is_none (pend k v) then (if is_none (pget k (dv_cache v)) then fresh_read (dv_disk v) k else Ok (pget k (dv_cache v))) else Ok (pend k v).
  Proof using.
    intros HB. unfold find, pend. rewrite HB, fresh_read_value. destruct (is_none (pget k (dv_writes v))); cbn [negb]; [|reflexivity].
    destruct (is_none (pget k (dv_cache v))); reflexivity.
  Qed.
  Lemma kept y : storable y -> y <> VNone -> exists z, stored_form y = Ok z /\ same y z.
  Proof using.
    intros HS HN. destruct (encode_decode y HS) as (t & z & E & D & HE). exists z. split; [|exact HE].
    unfold stored_form. rewrite E. cbn [bindr]. destruct y; [congruence|exact D..].
  Qed.
  Definition key_agrees (v0 v : driver) (k : pystr) : Prop :=
      (pend k v <> VNone /\ pend k v = pend k v0) \/
      (pend k v = VNone /\ fresh_read (dv_disk v) k = due k v0 /\ (pget k (dv_cache v) = VNone \/ (pget k (dv_cache v) = pend k v0))).
  Lemma find_agrees v0 v k : dv_bypass v0 = false -> dv_cache v0 = [] -> all_pending v0 -> dv_bypass v = false -> key_agrees v0 v k -> same_answer (find k v0) (find k v).
  Proof using.
    intros B0 C0 A0 B H. rewrite !find_now by assumption. rewrite C0. change (pget k []) with VNone. cbn [is_none].
    destruct (pend_cases v0 k A0) as [[E0 _]|(_ & N0 & S0)].
    - rewrite E0. cbn [is_none]. destruct H as [[N E]|(E & F & C)]; [congruence|]. rewrite E. cbn [is_none].
      assert (EC : pget k (dv_cache v) = VNone) by (destruct C; congruence). rewrite EC. cbn [is_none]. rewrite F. unfold due. rewrite E0. cbn [is_none].
      unfold same_answer. destruct (fresh_read (dv_disk v0) k); [apply same_refl|reflexivity].
    - pose proof (proj2 (is_none_neq _) N0) as N0'. rewrite N0'. destruct H as [[N E]|(E & F & C)].
      + rewrite E, N0'. apply same_refl.
      + rewrite E. cbn [is_none]. destruct (is_none (pget k (dv_cache v))) eqn:NC.
        * rewrite F. unfold due. rewrite N0'. destruct (kept _ S0 N0) as (z & -> & HS). exact HS.
        * apply is_none_neq in NC. destruct C as [C|C]; [congruence|]. rewrite C. apply same_refl.
  Qed.
  Lemma agree_find v0 v k : agree v0 v -> U k -> same_answer (find k v0) (find k v).
  Proof using. intros [A1 A2 A3 A0 A4 A5 A6 A7 A8] Hk. apply find_agrees; auto; [apply A4|apply A6, Hk]. Qed.
  Lemma same_answer_ok a b : same_answer a b -> (exists x, a = Ok x) <-> (exists y, b = Ok y).
  Proof using. destruct a, b; cbn; intros H; split; intros [x Hx]; try discriminate; try contradiction; eauto. Qed.
  (** ** Steps *)
  Lemma find_reads k r v : find k (set_reads r v) = find k v. Proof using. reflexivity. Qed.
  Lemma agree_get k v0 v : agree v0 v -> U k -> agree (snd (get k v0)) (snd (get k v)).
  Proof using.
    intros H Hk. pose proof (agree_find _ _ _ H Hk) as HF. rewrite !get_snd.
    assert (R : forall v, (forall j, U j -> pget j (dv_reads v) <> VNone -> exists x, find j v = Ok x) ->
      exists r, match find k v with Ok x => if is_none (pget k (dv_reads v)) then set_reads (dset k x (dv_reads v)) v else v | Err _ => v end = set_reads r v /\
        (forall j, U j -> pget j r <> VNone -> exists x, find j v = Ok x)).
    { intros u Hu. destruct (find k u) as [x|e] eqn:E; [|exists (dv_reads u); rewrite set_reads_same; auto].
      destruct (is_none (pget k (dv_reads u))); [|exists (dv_reads u); rewrite set_reads_same; auto].
      exists (dset k x (dv_reads u)). split; [reflexivity|]. intros j Hj. rewrite pget_dset. destruct (str_eqb j k) eqn:EJ; [apply str_eqb_eq in EJ; subst j; eauto|auto]. }
    destruct H as [A1 A2 A3 A0 A4 A5 A6 A7 A8]. destruct (R v0 A7) as (r0 & -> & R0), (R v A8) as (r & -> & R1).
    constructor; auto.
  Qed.
  Lemma set_body_eq k x b v : (pget k (dv_reads v) <> VNone -> exists y, find k v = Ok y) ->
    set_body k x b v = match find k v with
      | Err e => (Err e, v)
      | Ok _ => let v1 := snd (get k v) in
        match coerce x with
        | Err e => (Err e, v1)
        | Ok z => (Ok tt, let v2 := set_writes (dset k z (dv_writes v)) v1 in if b then set_txn (dset k z (dv_txn v)) v2 else v2)
        end
      end.
  Proof using.
    intros HR. unfold set_body. rewrite bind_eq. cbn [gets]. unfold gets. rewrite bind_eq.
    assert (P : (if is_none (pget k (dv_reads v)) then (get k;; ret tt) else ret tt) v = match find k v with Err e => (Err e, v) | Ok _ => (Ok tt, snd (get k v)) end).
    { destruct (is_none (pget k (dv_reads v))) eqn:N.
      - rewrite bind_eq. unfold get. destruct (find k v); [rewrite N|]; reflexivity.
      - destruct HR as (y & Hy); [apply is_none_neq, N|]. unfold get. rewrite Hy, N. reflexivity. }
    rewrite P. destruct (find k v) as [y|e] eqn:EF; [|reflexivity]. rewrite bind_eq. cbn [lift]. unfold lift. destruct (coerce x) as [z|e]; [|reflexivity].
    rewrite bind_eq. unfold modify. rewrite get_snd, EF. destruct b; unfold ret; destruct (is_none (pget k (dv_reads v))); destruct v; reflexivity.
  Qed.
  Lemma agree_written k z (b : bool) v0 v : agree v0 v -> U k -> storable z -> z <> VNone ->
    agree (let v2 := set_writes (dset k z (dv_writes v0)) v0 in if b then set_txn (dset k z (dv_txn v0)) v2 else v2)
          (let v2 := set_writes (dset k z (dv_writes v)) v in if b then set_txn (dset k z (dv_txn v)) v2 else v2).
  Proof using.
    intros [A1 A2 A3 A0 A4 A5 A6 A7 A8] Hk HS HN. cbv zeta.
    set (g := fun u : driver => if b then set_txn (dset k z (dv_txn u)) (set_writes (dset k z (dv_writes u)) u) else set_writes (dset k z (dv_writes u)) u).
    assert (G : forall u, dv_bypass (g u) = dv_bypass u /\ dv_cache (g u) = dv_cache u /\ dv_writes (g u) = dset k z (dv_writes u) /\ dv_disk (g u) = dv_disk u /\ dv_reads (g u) = dv_reads u /\ dv_deltas (g u) = dv_deltas u)
      by (intros u; unfold g; destruct b; auto 10).
    change (agree (g v0) (g v)).
    assert (PA : forall u, all_pending u -> all_pending (g u)).
    { intros u Hu. unfold all_pending. destruct (G u) as (_ & _ & -> & _). apply Forall_dset; [cbn; auto|exact Hu]. }
    assert (PE : forall u j, pend j (g u) = if str_eqb j k then z else pend j u).
    { intros u j. unfold pend. destruct (G u) as (_ & _ & -> & _). apply pget_dset. }
    assert (FI : forall u j, dv_bypass u = false -> find j (g u) = if str_eqb j k then Ok z else find j u).
    { intros u j Hu. destruct (G u) as (G1 & G2 & G3 & G4 & _). rewrite !find_now by congruence. rewrite PE, G2, G4. destruct (str_eqb j k); [|reflexivity].
      rewrite (proj2 (is_none_neq z) HN). reflexivity. }
    destruct (G v0) as (G1 & G2 & G3 & G4 & G5 & G6), (G v) as (F1 & F2 & F3 & F4 & F5 & F6). destruct A4 as (S1 & S2 & S3 & S4).
    constructor; try (apply PA; assumption); try congruence.
    - rewrite G3. apply NoDup_dset, A0.
    - unfold shape. rewrite F1, F2, F3, F6. repeat split; auto. apply NoDup_dset, S1.
    - intros j Hj. unfold due. rewrite !PE, G4, F4, F2. destruct (str_eqb j k) eqn:EJ; [left; auto|]. apply A6, Hj.
    - intros j Hj. rewrite G5, FI by assumption. destruct (str_eqb j k); [eauto|apply A7, Hj].
    - intros j Hj. rewrite F5, FI by assumption. destruct (str_eqb j k); [eauto|apply A8, Hj].
  Qed.
  Lemma perform_agree o w0 w : step_in U o -> agree (w_drv w0) (w_drv w) -> w_rt w0 = w_rt w ->
    same_answer (fst (perform o w0)) (fst (perform o w)) /\ agree (w_drv (snd (perform o w0))) (w_drv (snd (perform o w))) /\ w_rt (snd (perform o w0)) = w_rt (snd (perform o w)).
  Proof using.
    destruct w0 as [v0 rt], w as [v rt']. cbn [w_drv w_rt]. intros HO HA <-. destruct o as [k|k x b]; cbn [step_in perform] in *.
    - unfold on_drv. cbn [w_drv w_rt]. pose proof (agree_find _ _ _ HA HO) as HF. pose proof (agree_get _ _ _ HA HO) as HG.
      rewrite <- !get_fst in HF. destruct (get k v0) as [a0 u0], (get k v) as [a u]. cbn [fst snd w_drv w_rt] in *. auto.
    - destruct HO as (Hk & HS & HN). unfold set. rewrite !bind_eq. cbn [lift]. unfold lift. destruct (encode_kv_len k x) as [[kl vl]|e]; [|cbn; auto].
      rewrite !bind_eq. unfold on_rt. cbn [w_drv w_rt]. destruct (deduct_write kl vl rt) as [[[]|e] rt1]; [|cbn [fst snd w_drv w_rt same_answer]; auto].
      unfold on_drv. cbn [w_drv w_rt]. pose proof (agree_find _ _ _ HA Hk) as HF.
      rewrite (set_body_eq k x b v0) by (apply (ag_r0 _ _ HA), Hk). rewrite (set_body_eq k x b v) by (apply (ag_r _ _ HA), Hk).
      pose proof (agree_get _ _ _ HA Hk) as HG.
      destruct (find k v0) as [y0|e0] eqn:E0, (find k v) as [y|e] eqn:E; cbn [same_answer] in HF; try contradiction; [|subst e; cbn [fst snd w_drv w_rt same_answer]; auto].
      cbv zeta. destruct (coerce x) as [z|e] eqn:EC; [|cbn [fst snd w_drv w_rt same_answer]; auto].
      cbn [fst snd w_drv w_rt same_answer]. split; [constructor|]. split; [|reflexivity].
      pose proof (agree_written k z b _ _ HG Hk (storable_coerce _ _ HS EC) (coerce_not_none _ _ EC HN)) as W. cbv zeta in W.
      assert (Q : forall u, dv_writes (snd (get k u)) = dv_writes u /\ dv_txn (snd (get k u)) = dv_txn u).
      { intros u. destruct (ro_get k u) as (r & ->). auto. }
      destruct (Q v0) as [Q1 Q2], (Q v) as [Q3 Q4]. rewrite Q1, Q2, Q3, Q4 in W. exact W.
  Qed.
  (** ** Saving *)
  Lemma saved_reads v d' k : all_pending v -> NoDup (dkeys (dv_writes v)) -> U k ->
    fresh_read d' k = match last_write k (dv_writes v) with Some x => stored_form x | None => fresh_read (dv_disk v) k end ->
    fresh_read d' k = if is_none (pend k v) then fresh_read (dv_disk v) k else stored_form (pend k v).
  Proof using HU.
    intros HA ND Hk ->. rewrite last_write_value. rewrite (last_value_sep U k (dv_writes v)); [|intros k' H1 H2; apply (separate_places U HU k Hk k' H1 H2)|exact ND|].
    - destruct (pend_cases v k HA) as [[-> ->]|(-> & N & _)]; [reflexivity|]. rewrite (proj2 (is_none_neq _) N). reflexivity.
    - apply Forall_forall. intros kv Hi. unfold all_pending in HA. rewrite Forall_forall in HA. apply (HA _ Hi).
  Qed.
  Lemma hard_reads n reads l d d' k : foreach (apply_one n) (map (delta_of reads) l) d = (Ok tt, d') -> key_ok k ->
    fresh_read d' k = match last_write k l with Some x => stored_form x | None => fresh_read d k end.
  Proof using.
    intros H Hk. apply apply_all_attrs in H as [HF H]. rewrite !fresh_read_attrs by exact Hk. rewrite H, last_write_value.
    destruct (last_value (place_of k) l) as [x|] eqn:E; [|reflexivity]. cbn [at_value]. apply decode_new_value. rewrite Forall_forall in HF.
    destruct (last_value_In _ _ _ E) as (k' & Hi & _). apply (HF _ Hi).
  Qed.
  (** the key after a save that empties the pending writes *)
  Lemma settle_key v0 v v' k : agree v0 v -> U k -> dv_writes v' = [] ->
    fresh_read (dv_disk v') k = (if is_none (pend k v) then fresh_read (dv_disk v) k else stored_form (pend k v)) ->
    (pget k (dv_cache v') = VNone \/ pget k (dv_cache v') = pend k v0) -> key_agrees v0 v' k.
  Proof using.
    intros H Hk W F C. right. unfold pend at 1. rewrite W. split; [reflexivity|]. split; [|exact C]. rewrite F. destruct (ag_key _ _ H k Hk) as [[N E]|(E & D & _)].
    - rewrite (proj2 (is_none_neq _) N). unfold due. rewrite <- E, (proj2 (is_none_neq _) N). reflexivity.
    - rewrite E. exact D.
  Qed.
  Lemma saves_agree v0 w w1 : saves w w1 -> agree v0 (w_drv w) -> agree v0 (w_drv w1) /\ w_rt w1 = w_rt w.
  Proof using HU HK.
    intros HS HA. pose proof HA as [A1 A2 A3 A0 A4 A5 A6 A7 A8]. pose proof A4 as (S1 & S2 & S3 & S4). destruct HS as [w v HC|n w v HH|p w]; cbn [w_drv w_rt] in *; (split; [|reflexivity]).
    - apply commit_inv in HC as (d' & HC & ->). constructor; auto.
      + unfold shape; cbn [dv_writes dv_cache dv_disk dv_reads dv_deltas dv_bypass set_reads set_writes set_cache set_disk]. repeat split; try constructor; assumption.
      + constructor.
      + intros k Hk. apply (settle_key _ _ _ _ HA Hk); [reflexivity| |left; reflexivity]. cbn [dv_disk set_reads set_writes set_cache set_disk].
        apply saved_reads; auto. apply (commit_all_reads _ _ _ _ HC), HK, Hk.
      + intros k _ X. exfalso. apply X. reflexivity.
    - apply hard_apply_inv in HH; [|exact A4]. destruct HH as (d' & HH & ->). constructor; auto.
      + unfold shape; cbn [dv_writes dv_cache dv_disk dv_reads dv_deltas dv_bypass set_reads set_writes set_cache set_disk]. repeat split; try constructor; try assumption. apply NoDup_dupdate, S2.
      + constructor.
      + intros k Hk. apply (settle_key _ _ _ _ HA Hk); [reflexivity| |]; cbn [dv_disk dv_cache set_reads set_writes set_cache set_disk].
        * apply saved_reads; auto. apply (hard_reads _ _ _ _ _ _ HH), HK, Hk.
        * unfold pget. rewrite dget_dupdate by exact S1. destruct (A6 k Hk) as [[N E]|(E & _ & C)].
          -- right. destruct (pend_cases (w_drv w) k A5) as [[X _]|(-> & _)]; [congruence|exact E].
          -- destruct (pend_cases (w_drv w) k A5) as [[_ ->]|(_ & N & _)]; [exact C|congruence].
      + intros k _ X. exfalso. apply X. reflexivity.
    - assert (KA : forall k, U k -> key_agrees v0 (cache_drop p (w_drv w)) k).
      { intros k Hk. destruct (A6 k Hk) as [H|(E & F & C)]; [left; exact H|right]. split; [exact E|]. split; [exact F|].
        cbn [cache_drop dv_cache set_cache]. unfold pget. destruct (dget k (filter _ (dv_cache (w_drv w)))) as [y|] eqn:EF; [|left; reflexivity].
        apply (dget_filter (fun k => negb (p k))) in EF. unfold pget in C. rewrite EF in C. exact C. }
      constructor; auto.
      + unfold shape. cbn [cache_drop dv_writes dv_cache dv_deltas dv_bypass set_cache]. repeat split; auto. apply NoDup_filter, S2.
      + intros k Hk X. pose proof (A8 k Hk X) as Y. apply (same_answer_ok _ _ (agree_find _ _ _ HA Hk)) in Y.
        apply (same_answer_ok (find k v0) (find k (cache_drop p (w_drv w)))); [|exact Y]. apply find_agrees; auto.
  Qed.
  Theorem run_agree l w r w' : saved_anywhere l w r w' -> Forall (step_in U) l -> forall w0, agree (w_drv w0) (w_drv w) -> w_rt w0 = w_rt w ->
    Forall2 same_answer (fst (never_saved l w0)) r /\ agree (w_drv (snd (never_saved l w0))) (w_drv w') /\ w_rt (snd (never_saved l w0)) = w_rt w'.
  Proof using HU HK.
    induction 1 as [w|o l w r w' H IH|l w w1 r w' HS H IH]; intros HF w0 HA HR.
    - cbn. auto.
    - inversion HF as [|? ? HO HF']; subst. destruct (perform_agree o w0 w HO HA HR) as (P1 & P2 & P3). cbn [never_saved].
      destruct (perform o w0) as [a0 u0]. cbn [fst snd] in *. destruct (IH HF' u0 P2 P3) as (I1 & I2 & I3). destruct (never_saved l u0) as [r0 u1]. cbn [fst snd] in *. auto.
    - destruct (saves_agree _ _ _ HS HA) as [S1 S2]. apply (IH HF w0 S1). congruence.
  Qed.
  Lemma agree_start d rt : agree (w_drv (mkW (driver0 false d) rt)) (w_drv (mkW (driver0 false d) rt)).
  Proof using.
    cbn [w_drv]. constructor; try reflexivity.
    - constructor.
    - constructor.
    - repeat split; constructor.
    - constructor.
    - intros k Hk. right. split; [reflexivity|]. split; [reflexivity|left; reflexivity].
    - intros k _ X. exfalso. apply X. reflexivity.
    - intros k _ X. exfalso. apply X. reflexivity.
  Qed.
  Lemma agree_committed (rt : runtime) v0 v v1 v2 k : agree v0 v -> U k -> commit v0 = (Ok tt, v1) -> commit v = (Ok tt, v2) -> fresh_read (dv_disk v1) k = fresh_read (dv_disk v2) k.
  Proof using HU HK.
    intros HA Hk H1 H2. pose proof HA as [A1 A2 A3 A0 A4 A5 A6 A7 A8].
    pose proof (proj1 (saves_agree v0 (mkW v rt) _ (sv_commit (mkW v rt) v2 H2) HA)) as B. cbn [w_drv] in B. destruct (ag_key _ _ B k Hk) as [[N _]|(_ & F & _)].
    - apply commit_inv in H2 as (d2 & _ & ->). exfalso. apply N. reflexivity.
    - rewrite F. apply commit_inv in H1 as (d1 & H1 & ->). cbn [dv_disk set_reads set_writes set_cache set_disk]. unfold due.
      apply saved_reads; auto. apply (commit_all_reads _ _ _ _ H1), HK, Hk.
  Qed.
End Batch.
