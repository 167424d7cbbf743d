(** * Integer ranges in stored text, and convert_dict *)
From Verif Require Import Model.Base Model.Dec Model.Time Model.Value Model.Encoder.
From Verif Require Import Spec.DecSpec Spec.TimeSpec Spec.EncSpec Proofs.BaseFacts Proofs.DecFacts Proofs.DecOps Proofs.DecText Proofs.DecFloat Proofs.TimeFacts.
From Verif Require Import Proofs.JsonFacts Proofs.ParseFacts Proofs.EncFacts Proofs.EncFacts2.
From Coq Require Import Lia.
Local Open Scope N_scope.

Definition zrange (z : Z) : Prop := (- 2 ^ 63 < z < 2 ^ 63 - 1)%Z.
Definition payload (j : json) : Prop := (exists s, j = JStr s) \/ (exists l, j = jints l /\ Forall zrange l).
Fixpoint tame (j : json) : Prop :=
  match j with
  | JNull | JBool _ | JFloat _ | JStr _ => True
  | JInt z => zrange z
  | JList l => False
  | JObj d =>
      (exists k x, d = [(k, x)] /\ In k TYPES /\ payload x) \/
      (NoDup (map fst d) /\
       (fix all d := match d with
          | [] => True
          | (k, x) :: d' => ~ In k reserved /\
              match x with
              | JList l => (fix alli l := match l with [] => True | i :: l' => tame i /\ alli l' end) l
              | _ => tame x
              end /\ all d'
          end) d)
  end.
Definition tame_item (x : json) : Prop := match x with JList l => Forall tame l | _ => tame x end.
Lemma tame_obj d : tame (JObj d) <-> (exists k x, d = [(k, x)] /\ In k TYPES /\ payload x) \/
  (NoDup (map fst d) /\ Forall (fun kv => ~ In (fst kv) reserved /\ tame_item (snd kv)) d).
Proof.
  cbn [tame]. apply or_iff_compat_l. apply and_iff_compat_l. induction d as [|[k x] d IH]; [split; auto|].
  rewrite Forall_cons_iff, <- IH. cbn [fst snd].
  assert (E : match x with JList l => (fix alli l := match l with [] => True | i :: l' => tame i /\ alli l' end) l | _ => tame x end <-> tame_item x).
  { destruct x; cbn [tame_item]; try reflexivity. induction l as [|i l IHl]; [split; auto|]. rewrite Forall_cons_iff, <- IHl. reflexivity. }
  rewrite E. tauto.
Qed.
Lemma lud_dict d : lists_under_dicts (VDict d) <->
  Forall (fun kv => match snd kv with VList l => Forall lists_under_dicts l | x => lists_under_dicts x end) d.
Proof.
  cbn [lists_under_dicts]. induction d as [|[k x] d IH]; [split; auto|]. rewrite Forall_cons_iff, <- IH. cbn [snd].
  apply and_iff_compat_r. destruct x; try reflexivity. induction l as [|i l IHl]; [split; auto|]. rewrite Forall_cons_iff, <- IHl. reflexivity.
Qed.

Lemma encode_int_tame z w j : encode_int z = Ok w -> to_json w = Ok j -> tame j.
Proof.
  unfold encode_int, mongo_ok. destruct (_ && _)%bool eqn:E.
  - intros H; injection H as <-. cbn [to_json]. intros H. inv_bind H. injection K as <-. cbn [tame]. unfold zrange. apply andb_true_iff in E as [A B].
    apply Z.ltb_lt in A, B. split; assumption.
  - intros H. inv_bind H. injection K as <-. intros H; injection H as <-. apply tame_obj. left. eexists _, _. split; [reflexivity|].
    split; [unfold TYPES; cbn [In]; tauto|left; eexists; reflexivity].
Qed.
Definition Ptame (v : pyval) : Prop := storable v -> lists_under_dicts v -> forall w j, eid_elem v = Ok w -> to_json w = Ok j -> tame j.
Lemma eid_elems_ok l l' : eid_elems l = Ok l' -> Forall2 (fun v w => eid_elem v = Ok w) l l'.
Proof.
  revert l'; induction l as [|x l IH]; intros l' H; [injection H as <-; constructor|].
  rewrite eid_elems_cons in H. inv_bind H. inv_bind K. injection K0 as <-. constructor; auto.
Qed.
Lemma eid_items_ok l l' : eid_items l = Ok l' -> Forall2 (fun v w => fst v = fst w /\ eid_item (snd v) = Ok (snd w)) l l'.
Proof.
  revert l'; induction l as [|[k x] l IH]; intros l' H; [injection H as <-; constructor|].
  rewrite eid_items_cons in H. inv_bind H. inv_bind K. injection K0 as <-. constructor; auto.
Qed.
Lemma single_tame k x w : In k TYPES -> payload x -> w = JObj [(k, x)] -> tame w.
Proof. intros H1 H2 ->. apply tame_obj. left. eauto. Qed.
Lemma item_not_list v w : (forall l, v <> VList l) -> eid_item v = Ok w -> eid_elem v = Ok w.
Proof. intros H. destruct v; try exact (fun x => x). exfalso; eapply H; reflexivity. Qed.
Lemma to_json_tame_item x j : (forall l, j <> JList l) -> tame j -> x = j -> tame_item x.
Proof. intros H1 H2 ->. destruct j; try exact H2. exfalso; eapply H1; reflexivity. Qed.
Lemma tame_is_item j : tame j -> tame_item j.
Proof. destruct j; try (intros H; exact H). intros []. Qed.

Lemma tame_all v : Ptame v /\ (forall l, v = VList l -> Forall Ptame l).
Proof.
  induction v as [|b|z|r|s|b|d|d|t|t|l IH|l IH|d IH|i] using pyval_nested_ind;
    (split; [|first [intros l0 E0; discriminate | idtac]]); unfold Ptame.
  - intros _ _ w j H1 H2. injection H1 as <-. injection H2 as <-. exact I.
  - intros _ _ w j H1 H2. injection H1 as <-. injection H2 as <-. exact I.
  - intros _ _ w j H1 H2. eapply encode_int_tame; eassumption.
  - intros _ _ w j H1 H2. injection H1 as <-. injection H2 as <-. exact I.
  - intros _ _ w j H1 H2. injection H1 as <-. injection H2 as <-. exact I.
  - intros _ _ w j H1 H2. injection H1 as <-. injection H2 as <-. eapply single_tame; [| |reflexivity]; [unfold TYPES; cbn [In]; tauto|left; eauto].
  - intros _ _ w j H1 H2. injection H1 as <-. cbn [to_json] in H2. inv_bind H2. injection K as <-. eapply single_tame; [| |reflexivity]; [unfold TYPES; cbn [In]; tauto|left; eauto].
  - intros [].
  - intros HS _ w j H1 H2. injection H1 as <-. injection H2 as <-. eapply single_tame; [| |reflexivity]; [unfold TYPES; cbn [In]; tauto|right].
    cbn [storable] in HS. apply is_datetime_valid in HS. unfold vdt, datetime_valid in HS.
    assert (dt_day t <= 31)%Z by (pose proof (dim_bounds (dt_year t) (dt_month t)); lia).
    eexists; split; [reflexivity|]. unfold dt_fields. repeat constructor; unfold zrange; change (2 ^ 63)%Z with 9223372036854775808%Z; lia.
  - intros HS _ w j H1 H2. injection H1 as <-. injection H2 as <-. eapply single_tame; [| |reflexivity]; [unfold TYPES; cbn [In]; tauto|right].
    cbn [storable] in HS. apply is_timedelta_vtd in HS. destruct HS as (H1 & H2 & _).
    eexists; split; [reflexivity|]. repeat constructor; unfold zrange; change (2 ^ 63)%Z with 9223372036854775808%Z; lia.
  - intros _ [].
  - intros l0 E0. injection E0 as <-. eapply Forall_impl; [|exact IH]. intros a [H _]; exact H.
  - intros _ [].
  - intros HS HL w j H1 H2. change (encode_ints_in_dict (VDict d) = Ok w) in H1. rewrite eid_dict in H1. inv_bind H1. injection K as <-. rename x into d'.
    rewrite to_json_dict in H2. inv_bind H2. injection K as <-. rename x into js.
    apply eid_items_ok in E. apply to_json_d_ok in E0. apply storable_dict in HS as [HN HS]. apply lud_dict in HL.
    apply tame_obj. right.
    assert (G : map (fun kj => KStr (fst kj)) js = map fst d /\ Forall (fun kv => ~ In (fst kv) reserved /\ tame_item (snd kv)) js).
    { clear HN. revert js E0 IH HS HL. induction E as [|[k x] [k' x'] d d' [Ek Ex] HF IHF]; intros js E0 IH HS HL;
        inversion E0 as [|? y ? ys [Jk Jx] Hys]; subst; [split; [reflexivity|constructor]|].
      apply Forall_cons_iff in IH as [[I0 I1] IH]. apply Forall_cons_iff in HS as [[S0 S1] HS]. apply Forall_cons_iff in HL as [L1 HL].
      destruct y as [s y]. cbn [fst snd] in *. subst k'. destruct S0 as (s' & -> & Ts & Rs). injection Jk as <-.
      destruct (IHF _ Hys IH HS HL) as [G1 G2]. split; [cbn [map fst]; rewrite G1; reflexivity|].
      constructor; [|exact G2]. cbn [fst snd]. split; [exact Rs|].
      destruct (match x with VList _ => true | _ => false end) eqn:Eb.
      - destruct x; try discriminate. specialize (I1 l eq_refl). cbn [eid_item] in Ex. inv_bind Ex. injection K as <-.
        rewrite to_json_list in Jx. inv_bind Jx. injection K as <-. cbn [tame_item].
        apply eid_elems_ok in E. apply to_json_l_ok in E1. apply storable_list in S1.
        clear -E E1 I1 S1 L1. revert x0 E1 I1 S1 L1. induction E as [|a b l m Eab HF IH]; intros js E1 I1 S1 L1; inversion E1; subst; constructor;
          apply Forall_cons_iff in I1 as [I1 I1']; apply Forall_cons_iff in S1 as [S1 S1']; apply Forall_cons_iff in L1 as [L1 L1']; [eapply I1; eassumption|auto].
      - apply tame_is_item. apply item_not_list in Ex; [|intros l0 ->; discriminate]. eapply I0; try eassumption. destruct x; try exact L1. discriminate. }
    destruct G as [G1 G2]. split; [|exact G2]. rewrite <- G1 in HN. clear -HN. induction js as [|y js IH]; [constructor|]. cbn [map] in *.
    inversion HN as [|? ? Hn Hd]; subst. constructor; [|apply IH; exact Hd]. intros Hi. apply Hn. apply in_map_iff in Hi as (y' & E & Hi). apply in_map_iff.
    exists y'. split; [congruence|exact Hi].
  - intros [].
Qed.
Lemma preprocess_elem v : preprocess v = eid_elem v. Proof. destruct v; reflexivity. Qed.

(** ** plain parsing of a tame document *)
Lemma plain_jints l : of_json plain_object (jints l) = Ok (VList (map VInt l)).
Proof.
  unfold jints. rewrite of_json_list. assert (of_json_l plain_object (map JInt l) = Ok (map VInt l)) as ->; [|reflexivity].
  induction l as [|z l IH]; [reflexivity|]. cbn [map]. rewrite of_json_l_cons, IH. reflexivity.
Qed.
Lemma range_list l : ints_in_range (VList l) <-> Forall ints_in_range l.
Proof. induction l as [|x l IH]; cbn [ints_in_range]; [split; auto|]. rewrite Forall_cons_iff, <- IH. reflexivity. Qed.
Lemma range_dict d : ints_in_range (VDict d) <-> Forall (fun kv => ints_in_range (snd kv)) d.
Proof. induction d as [|[k x] l IH]; cbn [ints_in_range]; [split; auto|]. rewrite Forall_cons_iff, <- IH. cbn [snd]. tauto. Qed.
Lemma payload_plain x : payload x -> exists p, of_json plain_object x = Ok p /\ of_json as_object x = Ok p /\ ints_in_range p.
Proof.
  intros [(s & ->)|(l & -> & Hl)].
  - exists (VStr s). repeat split.
  - exists (VList (map VInt l)). rewrite plain_jints, of_json_jints. repeat split. apply range_list. apply Forall_map. exact Hl.
Qed.

Definition conv_elems (l : list pyval) : result (list pyval) :=
  (fix goi l := match l with [] => Ok [] | i :: l' => do y <- convert_dict i; do ys <- goi l'; Ok (y :: ys) end) l.
Definition conv_item (x : pyval) : result pyval :=
  match x with
  | VDict _ => convert_dict x
  | VList l => do l' <- conv_elems l; Ok (VList l')
  | _ => Ok x
  end.
Definition conv_go : list (pykey * pyval) -> list (pykey * pyval) -> result pyval :=
  fix go (d : list (pykey * pyval)) (acc : list (pykey * pyval)) : result pyval :=
         match d with
         | [] => Ok (VDict (rev acc))
         | (k, x) :: d' =>
             let special := match k with KStr s => str_mem s TYPES | _ => false end in
             if special then match k with KStr s => convert s x | _ => Ok x end
             else do x' <- conv_item x; go d' ((k, x') :: acc)
         end.
Lemma convert_dict_eq d : convert_dict (VDict d) = conv_go d []. Proof. reflexivity. Qed.
Lemma conv_elems_cons i l : conv_elems (i :: l) = do y <- convert_dict i; do ys <- conv_elems l; Ok (y :: ys). Proof. reflexivity. Qed.
Lemma reserved_types k : In k reserved <-> In k TYPES.
Proof. unfold reserved, TYPES, BIG_KEY. cbn [In]. tauto. Qed.
Lemma conv_go_cons s x d acc : ~ In s reserved -> conv_go ((KStr s, x) :: d) acc = do x' <- conv_item x; conv_go d ((KStr s, x') :: acc).
Proof.
  intros H. cbn [conv_go]. cbv zeta. assert (str_mem s TYPES = false) as ->; [|reflexivity].
  destruct (str_mem s TYPES) eqn:E; [|reflexivity]. apply str_mem_spec in E. apply reserved_types in E. contradiction.
Qed.

(** agreement: parse plainly, then convert = parse with the hook *)
Definition agree (conv : pyval -> result pyval) (j : json) : Prop :=
  exists p, of_json plain_object j = Ok p /\ conv p = of_json as_object j /\ ints_in_range p.
Lemma convert_single k x : In k TYPES -> payload x -> agree convert_dict (JObj [(k, x)]).
Proof.
  intros Hk Hx. destruct (payload_plain x Hx) as (p & P1 & P2 & P3). exists (VDict [(KStr k, p)]).
  rewrite !of_json_obj. unfold of_json_d. rewrite P1, P2. cbn [bindr]. unfold dict_of_pairs, dupdate. cbn [fold_left fst snd dset].
  split; [reflexivity|]. split; [|apply range_dict; constructor; [exact P3|constructor]].
  unfold TYPES, BIG_KEY in Hk. cbn [In] in Hk. destruct Hk as [<-|[<-|[<-|[<-|[<-|[]]]]]]; reflexivity.
Qed.
Lemma tame_agree j : (tame j -> agree convert_dict j) /\ (tame_item j -> agree conv_item j).
Proof.
  induction j as [|b|z|t|s|l IH|d IH] using json_nested_ind.
  - split; intros _; exists VNone; repeat split.
  - split; intros _; exists (VBool b); repeat split.
  - split; intros H; exists (VInt z); repeat split; exact H || (cbn [tame_item tame] in H; apply H).
  - split; intros _; eexists; repeat split.
  - split; intros _; exists (VStr s); repeat split.
  - split; [intros []|]. cbn [tame_item]. intros HT.
    assert (G : exists ps, of_json_l plain_object l = Ok ps /\ conv_elems ps = of_json_l as_object l /\ Forall ints_in_range ps).
    { induction IH as [|x l [Hx _] HF IHl]; [exists []; repeat split; constructor|]. apply Forall_cons_iff in HT as [Tx HT].
      destruct (Hx Tx) as (p & P1 & P2 & P3). destruct (IHl HT) as (ps & Q1 & Q2 & Q3). exists (p :: ps).
      rewrite !of_json_l_cons, P1, Q1, conv_elems_cons, P2, Q2. repeat split. constructor; assumption. }
    destruct G as (ps & Q1 & Q2 & Q3). exists (VList ps). rewrite !of_json_list, Q1. cbn [bindr conv_item]. rewrite Q2.
    repeat split. apply range_list; exact Q3.
  - assert (G : tame (JObj d) -> agree convert_dict (JObj d)).
    { intros HT. apply tame_obj in HT as [(k & x & -> & Hk & Hx)|[HN HT]]; [apply convert_single; assumption|].
      assert (G : exists ps, of_json_d plain_object d = Ok ps /\ map fst ps = map fst d /\ Forall (fun kv => ints_in_range (snd kv)) ps /\
        forall acc, conv_go (map (fun kv => (KStr (fst kv), snd kv)) ps) acc =
          do vs <- of_json_d as_object d; Ok (VDict (rev acc ++ map (fun kv => (KStr (fst kv), snd kv)) vs))).
      { clear HN. induction IH as [|[k x] l [_ Hx] HF IHl].
        - exists []. repeat split; try constructor. intros acc. cbn [map conv_go of_json_d bindr]. rewrite app_nil_r. reflexivity.
        - apply Forall_cons_iff in HT as [[Rk Tx] HT]. cbn [fst snd] in *.
          destruct (Hx Tx) as (p & P1 & P2 & P3). destruct (IHl HT) as (ps & Q1 & Q2 & Q3 & Q4). exists ((k, p) :: ps).
          rewrite !of_json_d_cons, P1, Q1. cbn [bindr map fst]. rewrite Q2. split; [reflexivity|]. split; [reflexivity|]. split; [constructor; assumption|].
          intros acc. cbn [map fst snd]. rewrite conv_go_cons by exact Rk. rewrite P2. destruct (of_json as_object x) as [v|e]; [|reflexivity].
          cbn [bindr]. rewrite Q4. destruct (of_json_d as_object l) as [vs|e]; [|reflexivity]. cbn [bindr map fst snd rev]. rewrite <- app_assoc. reflexivity. }
      destruct G as (ps & Q1 & Q2 & Q3 & Q4). exists (VDict (map (fun kv => (KStr (fst kv), snd kv)) ps)).
      rewrite !of_json_obj, Q1. cbn [bindr]. rewrite (dict_of_pairs_nodup ps) by (rewrite Q2; exact HN).
      split; [reflexivity|]. rewrite convert_dict_eq, Q4. split.
      - destruct (of_json_d as_object d) as [vs|e] eqn:Ev; [|reflexivity]. cbn [bindr rev app].
        assert (Kv : map fst vs = map fst d).
        { clear -Ev. revert vs Ev. induction d as [|[k x] d IH]; intros vs Ev; [injection Ev as <-; reflexivity|].
          rewrite of_json_d_cons in Ev. inv_bind Ev. inv_bind K. injection K0 as <-. cbn [map fst]. f_equal. apply IH; assumption. }
        rewrite (dict_of_pairs_nodup vs) by (rewrite Kv; exact HN). symmetry. apply as_object_plain.
        intros k Hr Hi. unfold dkeys in Hi. rewrite Kv in Hi. apply in_map_iff in Hi as ([k' x] & <- & Hi). rewrite Forall_forall in HT. exact (proj1 (HT _ Hi) Hr).
      - apply range_dict. apply Forall_map. exact Q3. }
    split; [exact G|]. intros HT. destruct (G HT) as (p & P1 & P2 & P3). exists p. split; [exact P1|]. split; [|exact P3].
    rewrite of_json_obj in P1. inv_bind P1. injection K as <-. exact P2.
Qed.
Lemma encode_plain v t : storable v -> lists_under_dicts v -> encode v = Ok t ->
  exists p, plain_loads t = Ok p /\ ints_in_range p /\ exists w, decode (Some t) = Ok w /\ convert_dict p = Ok w.
Proof.
  intros HS HL H. unfold encode in H. inv_bind H. inv_bind K. injection K0 as <-. rename x into w, x0 into j.
  assert (HW : wraps v w) by (apply preprocess_wraps; exact E).
  rewrite preprocess_elem in E. pose proof (proj1 (tame_all v) HS HL w j E E0) as HT.
  destruct (round_trip v HS w HW) as (j' & v' & J1 & J2 & J3 & _). assert (j' = j) by congruence. subst j'.
  destruct (proj1 (tame_agree j) HT) as (p & P1 & P2 & P3). exists p. unfold plain_loads. rewrite loads_print by exact J2. split; [exact P1|]. split; [exact P3|].
  exists v'. unfold decode. rewrite loads_print by exact J2. rewrite J3. split; [reflexivity|]. rewrite P2. exact J3.
Qed.
