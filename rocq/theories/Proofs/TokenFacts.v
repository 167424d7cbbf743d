(** * The token contract conserves its supply *)
From Verif Require Import Model.Base Model.State Model.Dec Model.Time Model.Value Model.Encoder Model.Hdf5 Model.Runtime Model.Driver Model.Orm Model.Exec Model.Executor Model.DecOps Model.TimeOps.
From Verif Require Import Spec.DecSpec Spec.OrmSpec Spec.ExecSpec Spec.IsolationSpec Spec.TokenSpec Proofs.BaseFacts Proofs.DecFacts Proofs.DecOps Proofs.DecText Proofs.DriverFacts Proofs.OrmFacts Proofs.ExecFacts Proofs.ExecRel Proofs.TxFacts Proofs.MeterFacts Proofs.IsoFacts.
From Verif Require Import Properties.DecProps.
From Coq Require Import Lia.
Local Open Scope Z_scope.

(** ** Ledgers *)
Lemma amount_inj v n n' : amount v n -> amount v n' -> n = n'.
Proof. destruct v; cbn; try contradiction; try (intros -> ->; reflexivity); [intros [-> _] [-> _]; reflexivity|]. intros [_ H] [_ H']. exact (has_units_inj _ _ _ H H'). Qed.
Lemma holds_inj f c a n n' : holds f c a n -> holds f c a n' -> n = n'.
Proof. intros (v & E & H) (v' & E' & H'). rewrite E in E'. injection E' as <-. exact (amount_inj _ _ _ H H'). Qed.
Lemma account_inj c a b : account_key c a = account_key c b -> a = b.
Proof. unfold account_key. intros E. do 3 apply app_inv_head in E. exact E. Qed.
Lemma sum_app l1 l2 : sum_of (l1 ++ l2) = sum_of l1 + sum_of l2.
Proof. induction l1 as [|x l IH]; cbn [app sum_of fold_right]; [reflexivity|]. fold (sum_of (l ++ l2)) (sum_of l). lia. Qed.
Lemma sum_nonneg l : Forall (fun x => 0 <= snd x) l -> 0 <= sum_of l.
Proof. induction 1; cbn; [lia|]. fold (sum_of l). lia. Qed.
Lemma supply_same c f g S : (forall a, ~ In (ch ".") a -> g (account_key c a) = f (account_key c a)) -> supply c f S -> supply c g S.
Proof.
  intros H (l & H1 & H2 & H3 & H4). assert (HH : forall a n, ~ In (ch ".") a -> holds f c a n -> holds g c a n) by (intros a n Ha (v & E & Hv); exists v; rewrite H by exact Ha; auto).
  exists l. split; [exact H1|]. split; [|split; [|exact H4]].
  - eapply Forall_impl; [|exact H2]. cbn. intros x (A & B & C). auto.
  - intros a Ha Hn. apply HH; [exact Ha|]. apply H3; assumption.
Qed.
Lemma supply_holds c f S a : supply c f S -> ~ In (ch ".") a -> exists n, holds f c a n /\ 0 <= n <= S.
Proof.
  intros (l & H1 & H2 & H3 & H4) Ha. assert (HN : Forall (fun x : pystr * Z => 0 <= snd x) l) by (eapply Forall_impl; [|exact H2]; intros x (A & _); exact A).
  destruct (in_dec (fun x y => match str_eqb_spec x y with ReflectT _ e => left e | ReflectF _ e => right e end) a (map fst l)) as [Hi|Hi].
  - apply in_map_iff in Hi as ([b n] & E & Hi). cbn in E. subst b. apply in_split in Hi as (l1 & l2 & ->). rewrite Forall_app in H2, HN. destruct H2 as [_ H2]. inversion H2 as [|x y (A & _ & B)]; subst. cbn in *. exists n. split; [exact B|]. split; [exact A|].
    destruct HN as [N1 N2]. inversion N2; subst. pose proof (sum_nonneg _ N1). pose proof (sum_nonneg l2 ltac:(assumption)). rewrite sum_app. cbn. fold (sum_of l2). lia.
  - exists 0. split; [apply H3; assumption|]. pose proof (sum_nonneg _ HN). lia.
Qed.
Lemma supply_update c f g a n n' S : ~ In (ch ".") a -> holds f c a n -> holds g c a n' -> 0 <= n' -> (forall k, k <> account_key c a -> g k = f k) -> supply c f S -> supply c g (S - n + n').
Proof.
  intros Ha Hn Hn' Hp H (l & H1 & H2 & H3 & H4). assert (HH : forall b m, b <> a -> holds f c b m -> holds g c b m) by (intros b m Hb (v & E & Hv); exists v; rewrite H; [auto|intros E2; apply Hb; exact (account_inj _ _ _ E2)]).
  destruct (in_dec (fun x y => match str_eqb_spec x y with ReflectT _ e => left e | ReflectF _ e => right e end) a (map fst l)) as [Hi|Hi].
  - apply in_map_iff in Hi as ([b m] & E & Hi). cbn in E. subst b. apply in_split in Hi as (l1 & l2 & ->). exists (l1 ++ (a, n') :: l2). rewrite map_app in *. cbn [map fst] in *.
    assert (NA : ~ In a (map fst l1 ++ map fst l2)) by (apply NoDup_remove_2 in H1; exact H1). rewrite in_app_iff in NA.
    rewrite Forall_app in H2. destruct H2 as [G1 G2]. inversion G2 as [|x y (A & _ & B) G3]; subst. cbn in A, B. rewrite (holds_inj _ _ _ _ _ Hn B) in *.
    assert (HG : forall l0, ~ In a (map fst l0) -> Forall (fun x : pystr * Z => 0 <= snd x /\ ~ In (ch ".") (fst x) /\ holds f c (fst x) (snd x)) l0 -> Forall (fun x : pystr * Z => 0 <= snd x /\ ~ In (ch ".") (fst x) /\ holds g c (fst x) (snd x)) l0).
    { intros l0 NI F. rewrite Forall_forall in *. intros x Hx. destruct (F x Hx) as (P & Q & T). split; [exact P|]. split; [exact Q|]. apply HH; [|exact T]. intros E. apply NI. rewrite <- E. apply in_map. exact Hx. }
    split; [exact H1|]. split; [|split].
    + apply Forall_app. split; [apply HG; tauto|]. constructor; [cbn; auto|]. apply HG; tauto.
    + intros b Hb Hnb. apply HH; [intros ->; apply Hnb; apply in_app_iff; right; left; reflexivity|]. apply H3; assumption.
    + rewrite !sum_app. cbn. fold (sum_of l2). lia.
  - exists ((a, n') :: l). rewrite (holds_inj _ _ _ _ _ Hn (H3 a Ha Hi)) in *. cbn [map fst]. split; [constructor; assumption|]. split; [|split].
    + constructor; [cbn; auto|]. rewrite Forall_forall in *. intros x Hx. destruct (H2 x Hx) as (P & Q & T). split; [exact P|]. split; [exact Q|]. apply HH; [|exact T]. intros E. apply Hi. rewrite <- E. apply in_map. exact Hx.
    + intros b Hb Hnb. apply HH; [intros ->; apply Hnb; left; reflexivity|]. apply H3; [exact Hb|]. intros Hc. apply Hnb. right. exact Hc.
    + cbn. fold (sum_of l). lia.
Qed.

(** ** Arithmetic *)
Definition num (v : pyval) (n : Z) : Prop := amount v n /\ v <> VNone.
Lemma range_digits z : - LIMU < z * ONE <= MAXU -> Z.of_nat (ndigits (Z.abs_N z)) <= 4300 /\ - 10 ^ 30 < z <= 10 ^ 29.
Proof.
  intros Hz. assert (Hr : - 10 ^ 30 < z <= 10 ^ 29) by (unfold LIMU, MAXU, ONE in Hz; lia). split; [|exact Hr]. destruct (Z.eq_dec z 0) as [->|Hz0]; [vm_compute; discriminate|].
  apply ndigits_le_Z; [lia|]. rewrite N2Z.inj_abs_N. assert (10 ^ 30 <= 10 ^ 4300) by (apply p10_le; lia). assert (10 ^ 29 <= 10 ^ 30) by (apply p10_le; lia). lia.
Qed.
Lemma agrees_ok r n : agrees r (store n) -> - LIMU < n <= MAXU -> exists d, r = Ok d /\ has_units d n.
Proof. intros H R. rewrite store_range in H by exact R. destruct r as [d|]; cbn in H; [eauto|contradiction]. Qed.
Lemma sub_num b d n m y : num b n -> constructed d -> has_units d m -> - LIMU < n - m <= MAXU -> with_dec ASub b d = Ok y -> num y (n - m) /\ exists e, y = VDec e.
Proof.
  intros [Hb Hb0] Hd Ud R E. destruct b; cbn in Hb; try contradiction; try (exfalso; apply Hb0; reflexivity).
  - destruct Hb as [-> Rz]. destruct (range_digits z Rz) as [D1 _]. destruct (C19_int_operand d m z (z * ONE) Hd Ud D1 (store_range _ Rz)) as (_ & _ & _ & _ & H & _). destruct (agrees_ok _ _ H R) as (e & Ee & Ue).
    cbn in E. unfold cd_rop_int in Ee. destruct (get_other_int z) as [o|] eqn:EO; [|discriminate]. cbn [bindr] in *. rewrite Ee in E. cbn [bindr] in E. injection E as <-. split; [|eauto]. split; [|discriminate]. split; [|exact Ue].
    apply (c_sub o d); [|exact Hd|exact Ee]. apply (c_int z). exact EO.
  - destruct Hb as [Hc Uc]. destruct (C19_arithmetic_exact_rounded_down d0 d n m Hc Hd Uc Ud) as (_ & H & _). destruct (agrees_ok _ _ H R) as (e & Ee & Ue).
    cbn in E. rewrite Ee in E. cbn [bindr] in E. injection E as <-. split; [|eauto]. split; [|discriminate]. split; [exact (c_sub _ _ _ Hc Hd Ee)|exact Ue].
Qed.
Lemma add_num b d n m y : num b n -> constructed d -> has_units d m -> - LIMU < n + m <= MAXU -> with_dec AAdd b d = Ok y -> num y (n + m) /\ exists e, y = VDec e.
Proof.
  intros [Hb Hb0] Hd Ud R E. destruct b; cbn in Hb; try contradiction; try (exfalso; apply Hb0; reflexivity).
  - destruct Hb as [-> Rz]. destruct (range_digits z Rz) as [D1 _]. pose proof (cd_of_int_stores z D1) as S. rewrite (store_range _ Rz) in S. destruct S as (o & Ho & Hu & _).
    destruct (C19_arithmetic_exact_rounded_down o d (z * ONE) m (c_int _ _ Ho) Hd Hu Ud) as (H & _). destruct (agrees_ok _ _ H R) as (e & Ee & Ue).
    cbn in E. unfold get_other_int in E. rewrite Ho in E. cbn [bindr] in E. rewrite Ee in E. cbn [bindr] in E. injection E as <-. split; [|eauto]. split; [|discriminate]. split; [exact (c_add _ _ _ (c_int _ _ Ho) Hd Ee)|exact Ue].
  - destruct Hb as [Hc Uc]. destruct (C19_arithmetic_exact_rounded_down d0 d n m Hc Hd Uc Ud) as (H & _). destruct (agrees_ok _ _ H R) as (e & Ee & Ue).
    cbn in E. rewrite Ee in E. cbn [bindr] in E. injection E as <-. split; [|eauto]. split; [|discriminate]. split; [exact (c_add _ _ _ Hc Hd Ee)|exact Ue].
Qed.
Lemma least_num b d n m : num b n -> constructed d -> has_units d m -> at_least b d = Ok true -> m <= n.
Proof.
  intros [Hb Hb0] Hd Ud E. destruct b; cbn in Hb; try contradiction; try (exfalso; apply Hb0; reflexivity).
  - destruct Hb as [-> Rz]. destruct (range_digits z Rz) as [_ D2]. destruct (C23_order_int d m z Hd Ud D2) as (_ & _ & H & _). cbn in E. unfold cd_cmp_int in H. destruct (get_other_int z) as [o|]; [|discriminate]. cbn [bindr] in *. rewrite E in H. injection H as H. symmetry in H. apply Z.leb_le in H. exact H.
  - destruct Hb as [Hc Uc]. destruct (C23_order d0 d n m Hc Hd Uc Ud) as (_ & _ & _ & _ & H). cbn in E. injection E as E. rewrite H in E. apply Z.leb_le in E. exact E.
Qed.
Lemma norm_num x n v : amount x n -> norm_dec (or_default (VInt 0) x) = Ok v -> num v n.
Proof.
  intros H E. destruct x; cbn in H; try contradiction.
  - subst n. cbn in E. injection E as <-. split; [|discriminate]. cbn. split; [reflexivity|]. unfold LIMU, MAXU. lia.
  - cbn in E. injection E as <-. split; [exact H|discriminate].
  - destruct H as [Hc Hu]. cbn in E. destruct (cd_of_str_round_trip true d n (constructed_wf _ Hc) Hu) as (d' & E' & U' & _). unfold cd_str in E. unfold cd_of_str in *.
    match type of E with bindr ?r _ = _ => destruct r as [d2|] eqn:E2 end; [|discriminate]. cbn [bindr] in E. injection E as <-. split; [|discriminate]. split; [exact (c_str _ _ E2)|]. congruence.
Qed.

(** ** Running the contract *)
Record same_reading (s s' : mach) : Prop := mkSame { sm_look : forall k, look s' k = look s k; sm_mods : s_mods s' = s_mods s; sm_bypass : dv_bypass (s_drv s') = dv_bypass (s_drv s) }.
Lemma same_reading_trans a b c : same_reading a b -> same_reading b c -> same_reading a c.
Proof. intros [A1 A2 A3] [B1 B2 B3]. constructor; [intros k; rewrite B1; apply A1|congruence|congruence]. Qed.
(** one key written *)
Record one_write (s s' : mach) (k : pystr) (v : pyval) : Prop := mkWrite {
  ow_other : forall j, j <> k -> look s' j = look s j; ow_key : dv_bypass (s_drv s) = false -> look s' k = Ok v;
  ow_bypass : dv_bypass (s_drv s) = true -> forall j, look s' j = look s j; ow_mods : s_mods s' = s_mods s; ow_same : dv_bypass (s_drv s') = dv_bypass (s_drv s) }.
Section Steps.
  Variables (L : lang) (RR : list pystr -> prog -> st mach pyval) (chn : list pystr).
  Notation goes := (go L RR chn).
  Lemma line_step e k s a s' : goes (PLine e k) s = (Ok a, s') -> exists s1, same_reading s s1 /\ goes k s1 = (Ok a, s').
  Proof.
    cbn [go]. intros E. rewrite bind_eq in E. pose proof (line_look e s) as H1. pose proof (line_mods e s) as H2. destruct (line e s) as [[[]|x] s1]; cbn [snd] in *; [|discriminate]. exists s1. split; [|exact E].
    constructor; [intros k0; rewrite !look_find, H1; reflexivity|exact H2|rewrite H1; reflexivity].
  Qed.
  Lemma need_step {A} (r : result A) k s a s' : goes (need r k) s = (Ok a, s') -> exists x, r = Ok x /\ goes (k x) s = (Ok a, s').
  Proof. destruct r as [x|e]; cbn [need go]; [eauto|discriminate]. Qed.
  Lemma assert_step r k s a s' : goes (assert_ r k) s = (Ok a, s') -> r = Ok true /\ goes k s = (Ok a, s').
  Proof. intros E. apply need_step in E as ([] & -> & E); [auto|discriminate]. Qed.
  Lemma ctx_step k s a s' : goes (PCtx k) s = (Ok a, s') -> goes (k (get_state (s_ctx s))) s = (Ok a, s').
  Proof. cbn [go]. intros E. rewrite bind_eq in E. exact E. Qed.
  Lemma get_step h k p s a s' : goes (PAct (ActHashGet h k) p) s = (Ok a, s') ->
    exists key x v s1, validate_key (l_ostr L) k = Ok key /\ look s (entry_key h key) = Ok x /\ norm_dec (or_default (h_default h) x) = Ok v /\ same_reading s s1 /\ goes (p v) s1 = (Ok a, s').
  Proof.
    cbn [go]. intros E. rewrite bind_eq in E. unfold act in E. destruct (validate_key (l_ostr L) k) as [key|e] eqn:EV.
    2:{ unfold on_w in E. cbn [do_act] in E. rewrite (hash_get_err _ _ _ _ _ EV) in E. discriminate. }
    destruct (hash_get_eq (l_ostr L) h k (s_w s) key EV) as (r & HE). unfold on_w in E. cbn [do_act] in E. rewrite HE in E. exists key.
    destruct (find (entry_key h key) (w_drv (s_w s))) as [x|e] eqn:EF; [|discriminate]. cbn [bindr] in E. destruct (norm_dec (or_default (h_default h) x)) as [v|e] eqn:EN; [|discriminate].
    match type of E with goes _ ?S = _ => exists x, v, S end. split; [reflexivity|]. split; [rewrite look_find; exact EF|]. split; [exact EN|]. split; [|exact E].
    constructor; [intros j; rewrite !look_find; apply (find_set_reads j r (s_drv s))|reflexivity|reflexivity].
  Qed.
  Lemma set_step h k d p s a s' : goes (PAct (ActHashSet h k (VDec d)) p) s = (Ok a, s') ->
    exists key s1, validate_key (l_ostr L) k = Ok key /\ one_write s s1 (entry_key h key) (VDec d) /\ goes (p VNone) s1 = (Ok a, s').
  Proof.
    cbn [go]. intros E. rewrite bind_eq in E. unfold act in E. unfold on_w in E. cbn [do_act] in E. rewrite bind_eq in E. unfold hash_set in E. rewrite bind_eq in E. cbn [lift] in E.
    destruct (validate_key (l_ostr L) k) as [key|e]; [|discriminate]. exists key. destruct (set_spec (entry_key h key) (VDec d) true (s_w s)) as [(y & r & t & HY & _ & HS & HD & _)|(e & r & HE & _)].
    2:{ destruct (set (entry_key h key) (VDec d) true (s_w s)) as [[|] w1]; [discriminate HE|discriminate E]. }
    destruct (set (entry_key h key) (VDec d) true (s_w s)) as [[[]|] w1]; [|discriminate HS]. cbn [snd ret] in *. injection HY as <-.
    match type of E with goes _ ?S = _ => exists S end. split; [reflexivity|]. split; [|exact E].
    assert (HF : forall j s0, s_drv s0 = w_drv w1 -> look s0 j = if dv_bypass (s_drv s) then look s j else if str_eqb j (entry_key h key) then Ok (VDec d) else look s j).
    { intros j s0 E0. rewrite !look_find, E0, HD. change (w_drv (s_w s)) with (s_drv s). unfold find. destruct (s_drv s) as [a0 a1 a2 a3 a4 a5 a6 a7]. cbn. destruct a6; [reflexivity|]. unfold pget. rewrite dget_dset. destruct (str_eqb j (entry_key h key)); reflexivity. }
    constructor; try reflexivity.
    - intros j Hj. rewrite (HF j) by reflexivity. destruct (dv_bypass (s_drv s)); [reflexivity|]. destruct (str_eqb_spec j (entry_key h key)); [contradiction|reflexivity].
    - intros B. rewrite (HF (entry_key h key)) by reflexivity. rewrite B, str_eqb_refl. reflexivity.
    - intros B j. rewrite (HF j) by reflexivity. rewrite B. reflexivity.
    - unfold s_drv. cbn. rewrite HD. reflexivity.
  Qed.
  Lemma update_step h k o d rest s a s' : (forall v y, with_dec o v d = Ok y -> exists e, y = VDec e) -> goes (update h k o d rest) s = (Ok a, s') ->
    exists key x v e s1, validate_key (l_ostr L) k = Ok key /\ look s (entry_key h key) = Ok x /\ norm_dec (or_default (h_default h) x) = Ok v /\ with_dec o v d = Ok (VDec e) /\
      one_write s s1 (entry_key h key) (VDec e) /\ goes rest s1 = (Ok a, s').
  Proof.
    intros HO E. apply get_step in E as (key & x & v & s1 & EV & EL & EN & [S1 S2 S3] & E). apply need_step in E as (y & EY & E). destruct (HO v y EY) as (e & ->). apply set_step in E as (key' & s2 & EV' & [W1 W2 W3 W4 W5] & E).
    rewrite EV in EV'. injection EV' as <-. exists key, x, v, e, s2. repeat (split; [assumption|]). split; [|exact E]. constructor.
    - intros j Hj. rewrite W1, S1 by exact Hj. reflexivity.
    - intros B. apply W2. rewrite S3. exact B.
    - intros B j. rewrite W3, S1; [reflexivity|rewrite S3; exact B].
    - congruence.
    - congruence.
  Qed.
  Lemma check_step h k d rest s a s' : goes (check_at_least h k d rest) s = (Ok a, s') ->
    exists key x v s1, validate_key (l_ostr L) k = Ok key /\ look s (entry_key h key) = Ok x /\ norm_dec (or_default (h_default h) x) = Ok v /\ at_least v d = Ok true /\ same_reading s s1 /\ goes rest s1 = (Ok a, s').
  Proof. intros E. apply get_step in E as (key & x & v & s1 & EV & EL & EN & SM & E). apply assert_step in E as (EA & E). exists key, x, v, s1. auto 10. Qed.
  Lemma positive_step ln v k s a s' : goes (positive L ln v k) s = (Ok a, s') -> exists d m s1, constructed d /\ has_units d m /\ 0 < m <= MAXU /\ same_reading s s1 /\ goes (k d) s1 = (Ok a, s').
  Proof.
    intros E. unfold positive in E. apply line_step in E as (s1 & S1 & E). apply need_step in E as (d & ED & E). apply line_step in E as (s2 & S2 & E). apply assert_step in E as (EA & E).
    destruct (py_str (l_ostr L) v) as [t|]; [|discriminate]. cbn [bindr] in ED. pose proof (c_str _ _ ED) as Hc. destruct (constructed_wf _ Hc) as (m & Um & Rm & _).
    exists d, m, s2. split; [exact Hc|]. split; [exact Um|]. split; [|split; [exact (same_reading_trans _ _ _ S1 S2)|exact E]]. split; [|apply Rm].
    destruct (C23_order_int d m 0 Hc Um ltac:(lia)) as (_ & _ & _ & H & _). unfold dec_cmp in EA. cbn [get_other] in EA. unfold cd_cmp_int in H. destruct (get_other_int 0) as [o|]; [|discriminate]. cbn [bindr] in *.
    injection EA as EA. cbn [cd_cmp] in EA. injection H as H. rewrite EA in H. symmetry in H. apply Z.ltb_lt in H. exact H.
  Qed.
End Steps.
Lemma with_dec_dec o v d y : with_dec o v d = Ok y -> exists e, y = VDec e.
Proof.
  assert (H1 : forall r : result fd, (do z <- r; Ok (VDec z)) = Ok y -> exists e, y = VDec e) by (intros [z|] E; cbn [bindr] in E; [injection E as <-; eauto|discriminate]).
  assert (H2 : forall (r : result fd) (f : fd -> result fd), (do a <- r; do z <- f a; Ok (VDec z)) = Ok y -> exists e, y = VDec e) by (intros [a|] f E; cbn [bindr] in E; [exact (H1 _ E)|discriminate]).
  assert (HR : forall r, dec_right o v d = Some r -> r = Ok y -> exists e, y = VDec e).
  { intros r E ->. unfold dec_right in E. destruct o, v; cbn [get_other plain] in E; try discriminate E; injection E as E; try (exact (H2 _ _ E)); try discriminate E; destruct d0; try discriminate E; exact (H1 _ E). }
  assert (HL : forall x, dec_left o x (VDec d) = Ok y -> exists e, y = VDec e) by (intros x E; unfold dec_left in E; cbn [get_other bindr] in E; exact (H1 _ E)).
  unfold with_dec. destruct v; try (destruct (dec_right o _ d) as [r|] eqn:ER; [intros E; exact (HR r eq_refl E)|discriminate]). apply HL.
Qed.

(** what any step of the contract leaves alone *)
Record fine (s s' : mach) : Prop := mkFine {
  fn_mods : s_mods s' = s_mods s; fn_meta : forall k, ~ In (ch ":") k -> look s' k = look s k; fn_bypass : dv_bypass (s_drv s') = dv_bypass (s_drv s);
  fn_dead : dv_bypass (s_drv s) = true -> forall k, look s' k = look s k }.
Lemma fine_trans a b c : fine a b -> fine b c -> fine a c.
Proof. intros [A1 A2 A3 A4] [B1 B2 B3 B4]. constructor; [congruence|intros k Hk; rewrite B2, A2 by exact Hk; reflexivity|congruence|]. intros H k. rewrite B4, A4; [reflexivity|exact H|congruence]. Qed.
Lemma fine_same s s' : same_reading s s' -> fine s s'.
Proof. intros [A B C]. constructor; auto. Qed.
Lemma entry_colon h key : In (ch ":") (entry_key h key).
Proof. unfold entry_key. apply in_or_app. right. left. reflexivity. Qed.
Lemma fine_write s s' h key v : one_write s s' (entry_key h key) v -> fine s s'.
Proof. intros [A B C D E]. constructor; [exact D| |exact E|exact C]. intros k Hk. apply A. intros ->. apply Hk, entry_colon. Qed.
Lemma key_dotless ostr k s : validate_key ostr k = Ok s -> ~ In (ch ".") s.
Proof.
  intros H. apply validate_spec in H as (ts & [_ _ HP _] & ->). assert (HD : forall x, In x ts -> ~ In (ch ".") x) by (intros x Hx; apply (HP x Hx)). clear HP.
  induction ts as [|x ts IH]; [intros []|]. destruct ts as [|y ts]; [apply HD; left; reflexivity|]. cbn [join]. intros Hi. apply in_app_or in Hi as [Hi|Hi]; [exact (HD x (or_introl eq_refl) Hi)|]. apply in_app_or in Hi as [[Hi|[]]|Hi]; [discriminate Hi|].
  apply IH; [|exact Hi]. intros z Hz. apply HD. right. exact Hz.
Qed.
Section Conserve.
  Variables (L : lang) (c : pystr) (ln : nat -> line_event).
  Lemma account_entry key : entry_key (balances c) key = account_key c key.
  Proof. unfold entry_key, balances, hash_decl, account_key. cbn [h_key make_key]. rewrite <- !app_assoc. reflexivity. Qed.
  Lemma allowance_entry key a : entry_key (allowances c) key <> account_key c a.
  Proof. unfold entry_key, allowances, hash_decl, account_key. cbn [h_key make_key]. rewrite <- !app_assoc. intros E. do 2 apply app_inv_head in E. discriminate E. Qed.
  (** the balance read *)
  Lemma read_balance f S key x v : supply c f S -> ~ In (ch ".") key -> f (entry_key (balances c) key) = Ok x -> norm_dec (or_default (h_default (balances c)) x) = Ok v ->
    exists n, holds f c key n /\ num v n /\ 0 <= n <= S.
  Proof.
    intros HS Hk EX EN. rewrite account_entry in EX. destruct (supply_holds c f S key HS Hk) as (n & Hn & Rn). exists n. split; [exact Hn|]. split; [|exact Rn].
    destruct Hn as (x' & E' & HA). rewrite EX in E'. injection E' as <-. exact (norm_num x n v HA EN).
  Qed.
  Lemma write_balance s s1 S key e n n' : one_write s s1 (entry_key (balances c) key) (VDec e) -> dv_bypass (s_drv s) = false -> ~ In (ch ".") key -> supply c (look s) S -> holds (look s) c key n -> amount (VDec e) n' -> 0 <= n' ->
    supply c (look s1) (S - n + n').
  Proof.
    intros [W1 W2 _ _ _] B Hk HS Hn Hn' Hp. rewrite account_entry in *. apply (supply_update c (look s) (look s1) key n n' S Hk Hn); [exists (VDec e); split; [exact (W2 B)|exact Hn']|exact Hp|exact W1|exact HS].
  Qed.
  Lemma same_supply s s1 S : same_reading s s1 -> supply c (look s) S -> supply c (look s1) S.
  Proof. intros [H _ _]. apply supply_same. intros a _. apply H. Qed.
  Lemma allow_supply s s1 S key v : one_write s s1 (entry_key (allowances c) key) v -> supply c (look s) S -> supply c (look s1) S.
  Proof. intros [H _ _ _ _]. apply supply_same. intros a _. apply H. intros E. symmetry in E. exact (allowance_entry _ _ E). Qed.
  Definition conserves (s s' : mach) : Prop := fine s s' /\ (dv_bypass (s_drv s) = false -> forall S, S <= MAXU -> supply c (look s) S -> supply c (look s') S).
  (** the last two statements of both transfers: debit an account that is good for it, credit another *)
  Lemma move RR chn l from to d m s a s' : constructed d -> has_units d m -> 0 < m ->
    go L RR chn (update (balances c) from ASub d (PLine l (update (balances c) to AAdd d (PRet VNone)))) s = (Ok a, s') ->
    (forall key x v, validate_key (l_ostr L) from = Ok key -> look s (entry_key (balances c) key) = Ok x -> norm_dec (or_default (h_default (balances c)) x) = Ok v -> at_least v d = Ok true) ->
    conserves s s'.
  Proof.
    intros Hd Ud Hm E HA. apply update_step in E as (k1 & x1 & v1 & e1 & s1 & V1 & L1 & N1 & O1 & W1 & E); [|intros ? ?; apply with_dec_dec]. apply line_step in E as (s2 & S2 & E).
    apply update_step in E as (k2 & x2 & v2 & e2 & s3 & V2 & L2 & N2 & O2 & W2 & E); [|intros ? ?; apply with_dec_dec]. cbn [go ret] in E. injection E as _ <-. specialize (HA k1 x1 v1 V1 L1 N1).
    pose proof (key_dotless _ _ _ V1) as D1. pose proof (key_dotless _ _ _ V2) as D2. pose proof (fine_write _ _ _ _ _ W1) as F1. pose proof (fine_same _ _ S2) as F2. pose proof (fine_write _ _ _ _ _ W2) as F3.
    split; [exact (fine_trans _ _ _ F1 (fine_trans _ _ _ F2 F3))|]. intros B S HM HS.
    destruct (read_balance (look s) S k1 x1 v1 HS D1 L1 N1) as (n1 & H1 & M1 & R1). pose proof (least_num v1 d n1 m M1 Hd Ud HA) as Hle.
    destruct (sub_num v1 d n1 m (VDec e1) M1 Hd Ud) as [[A1 _] _]; [unfold LIMU; lia|exact O1|].
    pose proof (write_balance s s1 S k1 e1 n1 (n1 - m) W1 B D1 HS H1 A1 ltac:(lia)) as HS1. replace (S - n1 + (n1 - m)) with (S - m) in HS1 by lia. apply (same_supply s1 s2 _ S2) in HS1.
    assert (B2 : dv_bypass (s_drv s2) = false) by (rewrite (fn_bypass _ _ F2), (fn_bypass _ _ F1); exact B).
    destruct (read_balance (look s2) (S - m) k2 x2 v2 HS1 D2 L2 N2) as (n2 & H2 & M2 & R2). destruct (add_num v2 d n2 m (VDec e2) M2 Hd Ud) as [[A2 _] _]; [unfold LIMU; lia|exact O2|].
    pose proof (write_balance s2 s3 (S - m) k2 e2 n2 (n2 + m) W2 B2 D2 HS1 H2 A2 ltac:(lia)) as HS3. replace (S - m - n2 + (n2 + m)) with S in HS3 by lia. exact HS3.
  Qed.
  Lemma conserves_trans a b d : conserves a b -> conserves b d -> conserves a d.
  Proof. intros [A1 A2] [B1 B2]. split; [exact (fine_trans _ _ _ A1 B1)|]. intros B S HM HS. apply B2; [rewrite (fn_bypass _ _ A1); exact B|exact HM|]. apply A2; assumption. Qed.
  Lemma conserves_same s s1 : same_reading s s1 -> conserves s s1.
  Proof. intros H. split; [exact (fine_same _ _ H)|]. intros _ S _. apply same_supply, H. Qed.
  Lemma conserves_allow s s1 key v : one_write s s1 (entry_key (allowances c) key) v -> conserves s s1.
  Proof. intros H. split; [exact (fine_write _ _ _ _ _ H)|]. intros _ S _. apply (allow_supply _ _ _ _ _ H). Qed.
  (** a balance found sufficient is still so after steps that leave the balances alone *)
  Lemma still_enough s s1 from key0 x0 v0 d : validate_key (l_ostr L) from = Ok key0 -> look s (entry_key (balances c) key0) = Ok x0 -> norm_dec (or_default (h_default (balances c)) x0) = Ok v0 -> at_least v0 d = Ok true ->
    look s1 (entry_key (balances c) key0) = look s (entry_key (balances c) key0) ->
    forall key x v, validate_key (l_ostr L) from = Ok key -> look s1 (entry_key (balances c) key) = Ok x -> norm_dec (or_default (h_default (balances c)) x) = Ok v -> at_least v d = Ok true.
  Proof. intros V0 E0 N0 A0 HS key x v V E N. rewrite V0 in V. injection V as <-. rewrite HS, E0 in E. injection E as <-. rewrite N0 in N. injection N as <-. exact A0. Qed.
  Theorem token_conserves RR chn p s a s' : token_code L c ln p -> go L RR chn p s = (Ok a, s') -> conserves s s'.
  Proof.
    intros (kw & [HP|[HP|HP]]) E; subst p.
    - unfold transfer in E. destruct (dget (u "amount") kw) as [am|]; [|discriminate]. destruct (dget (u "to") kw) as [to|]; [|discriminate].
      apply positive_step in E as (d & m & s1 & Hd & Ud & Hm & S1 & E). apply ctx_step in E. cbv zeta in E. apply line_step in E as (s2 & S2 & E). apply check_step in E as (k & x & v & s3 & V & EL & EN & EA & S3 & E). apply line_step in E as (s4 & S4 & E).
      assert (S24 : same_reading s2 s4) by exact (same_reading_trans _ _ _ S3 S4).
      eapply conserves_trans; [apply conserves_same; exact (same_reading_trans _ _ _ S1 (same_reading_trans _ _ _ S2 S24))|].
      eapply move; [exact Hd|exact Ud|lia|exact E|]. exact (still_enough s2 s4 _ k x v d V EL EN EA (sm_look _ _ S24 _)).
    - unfold approve in E. destruct (dget (u "amount") kw) as [am|]; [|discriminate]. destruct (dget (u "to") kw) as [to|]; [|discriminate].
      apply positive_step in E as (d & m & s1 & Hd & Ud & Hm & S1 & E). apply ctx_step in E. apply line_step in E as (s2 & S2 & E). apply update_step in E as (k & x & v & e & s3 & V & EL & EN & EO & W & E); [|intros ? ?; apply with_dec_dec].
      cbn [go ret] in E. injection E as _ <-. eapply conserves_trans; [apply conserves_same; exact (same_reading_trans _ _ _ S1 S2)|]. exact (conserves_allow _ _ _ _ W).
    - unfold transfer_from in E. destruct (dget (u "amount") kw) as [am|]; [|discriminate]. destruct (dget (u "to") kw) as [to|]; [|discriminate]. destruct (dget (u "main_account") kw) as [main|]; [|discriminate].
      apply positive_step in E as (d & m & s1 & Hd & Ud & Hm & S1 & E). apply ctx_step in E. cbv zeta in E. apply line_step in E as (s2 & S2 & E). apply check_step in E as (k0 & x0 & v0 & s3 & V0 & _ & _ & _ & S3 & E). apply line_step in E as (s4 & S4 & E).
      apply check_step in E as (k & x & v & s5 & V & EL & EN & EA & S5 & E). apply line_step in E as (s6 & S6 & E). apply update_step in E as (k1 & x1 & v1 & e1 & s7 & V1 & _ & _ & _ & W & E); [|intros ? ?; apply with_dec_dec]. apply line_step in E as (s8 & S8 & E).
      eapply conserves_trans; [apply conserves_same; exact (same_reading_trans _ _ _ S1 (same_reading_trans _ _ _ S2 (same_reading_trans _ _ _ S3 (same_reading_trans _ _ _ S4 (same_reading_trans _ _ _ S5 S6)))))|].
      eapply conserves_trans; [exact (conserves_allow _ _ _ _ W)|]. eapply conserves_trans; [exact (conserves_same _ _ S8)|].
      eapply move; [exact Hd|exact Ud|lia|exact E|]. refine (still_enough s4 s8 _ k x v d V EL EN EA _). rewrite (sm_look _ _ S8), (ow_other _ _ _ _ W), (sm_look _ _ S6), (sm_look _ _ S5); [reflexivity|]. rewrite account_entry. intros E8. symmetry in E8. exact (allowance_entry _ _ E8).
  Qed.
End Conserve.
