(** * Encoding and decoding storable values *)
From Verif Require Import Model.Base Model.Dec Model.Time Model.Value Model.Encoder.
From Verif Require Import Spec.DecSpec Spec.TimeSpec Spec.EncSpec Proofs.BaseFacts Proofs.DecFacts Proofs.DecOps Proofs.DecText Proofs.DecFloat Proofs.TimeFacts.
From Verif Require Import Proofs.JsonFacts Proofs.ParseFacts.
From Coq Require Import Lia.
Local Open Scope N_scope.

(** ** named versions of the nested loops *)
Definition to_json_l (l : list pyval) : result (list json) :=
  (fix go l := match l with [] => Ok [] | x :: l' => do y <- to_json x; do ys <- go l'; Ok (y :: ys) end) l.
Definition to_json_d (d : list (pykey * pyval)) : result (list (pystr * json)) :=
  (fix go d := match d with
     | [] => Ok []
     | (k, x) :: d' => do k' <- json_key k; do y <- to_json x; do ys <- go d'; Ok ((k', y) :: ys)
     end) d.
Lemma to_json_list l : to_json (VList l) = do l' <- to_json_l l; Ok (JList l'). Proof. reflexivity. Qed.
Lemma to_json_tuple l : to_json (VTuple l) = do l' <- to_json_l l; Ok (JList l'). Proof. reflexivity. Qed.
Lemma to_json_dict d : to_json (VDict d) = do d' <- to_json_d d; Ok (JObj d'). Proof. reflexivity. Qed.
Lemma to_json_l_cons x l : to_json_l (x :: l) = do y <- to_json x; do ys <- to_json_l l; Ok (y :: ys). Proof. reflexivity. Qed.
Lemma to_json_d_cons k x d : to_json_d ((k, x) :: d) = do k' <- json_key k; do y <- to_json x; do ys <- to_json_d d; Ok ((k', y) :: ys).
Proof. reflexivity. Qed.

Definition eid_elem (i : pyval) : result pyval :=
  match i with VDict _ => encode_ints_in_dict i | VInt z => encode_int z | _ => Ok i end.
Definition eid_elems (l : list pyval) : result (list pyval) :=
  (fix goi (l : list pyval) : result (list pyval) :=
     match l with
     | [] => Ok []
     | i :: l' => do i' <- match i with VDict _ => encode_ints_in_dict i | VInt z => encode_int z | _ => Ok i end;
                  do r <- goi l'; Ok (i' :: r)
     end) l.
Definition eid_item (x : pyval) : result pyval :=
  match x with
  | VInt z => encode_int z
  | VDict _ => encode_ints_in_dict x
  | VList l => do l' <- eid_elems l; Ok (VList l')
  | _ => Ok x
  end.
Definition eid_items (d : list (pykey * pyval)) : result (list (pykey * pyval)) :=
  (fix go (d : list (pykey * pyval)) : result (list (pykey * pyval)) :=
     match d with
     | [] => Ok []
     | (k, x) :: d' => do x' <- eid_item x; do r <- go d'; Ok ((k, x') :: r)
     end) d.
Lemma eid_dict d : encode_ints_in_dict (VDict d) = do d' <- eid_items d; Ok (VDict d'). Proof. reflexivity. Qed.
Lemma eid_items_cons k x d : eid_items ((k, x) :: d) = do x' <- eid_item x; do r <- eid_items d; Ok ((k, x') :: r). Proof. reflexivity. Qed.
Lemma eid_elems_cons x l : eid_elems (x :: l) = do x' <- eid_elem x; do r <- eid_elems l; Ok (x' :: r). Proof. reflexivity. Qed.

(** ** small facts *)
Lemma text_ok_ascii s : (forall c, In c s -> c < 55296) -> text_ok s.
Proof.
  induction s as [|c s IH]; intros H; cbn [text_ok]; [trivial|]. pose proof (H c (or_introl eq_refl)).
  split; [lia|]. split; [destruct s; [trivial|lia]|]. apply IH. intros x Hx; apply H; right; exact Hx.
Qed.
Lemma numchar_small c : numchar c -> c < 128.
Proof.
  unfold numchar, is_digit. intros H. repeat destruct H as [H|H]; try (rewrite H; reflexivity).
  apply andb_true_iff in H as [_ H]. apply N.leb_le in H. lia.
Qed.
Lemma text_ok_num s : (forall c, In c s -> numchar c) -> text_ok s.
Proof. intros H. apply text_ok_ascii. intros c Hc. apply H, numchar_small in Hc. lia. Qed.
Lemma hex_of_bytes_chars b c : Forall (fun x => x < 256) b -> In c (hex_of_bytes b) -> 32 < c <= 126.
Proof.
  intros H Hc. unfold hex_of_bytes in Hc. apply in_flat_map in Hc as (x & Hx & Hc). rewrite Forall_forall in H. specialize (H x Hx).
  assert (x / 16 < 16) by (apply N.div_lt_upper_bound; lia). pose proof (mod16 x).
  destruct Hc as [<-|[<-|[]]]; apply hex_digit_range; assumption.
Qed.
Lemma int_ok_small z : (Z.abs z < 10 ^ 18)%Z -> int_ok z.
Proof.
  intros H. unfold int_ok. eapply Z.lt_le_trans; [exact H|]. apply Z.pow_le_mono_r; lia.
Qed.
Lemma jok_jints l : Forall int_ok l -> jok (jints l).
Proof. intros H. apply jok_list. apply Forall_map. eapply Forall_impl; [|exact H]. intros z Hz; exact Hz. Qed.
Lemma of_json_jints l : of_json as_object (jints l) = Ok (VList (map VInt l)).
Proof.
  unfold jints. rewrite of_json_list. assert (of_json_l as_object (map JInt l) = Ok (map VInt l)) as ->; [|reflexivity].
  induction l as [|z l IH]; [reflexivity|]. cbn [map]. rewrite of_json_l_cons, IH. reflexivity.
Qed.
Lemma dict_of_pairs_nodup l : NoDup (map fst l) -> dict_of_pairs l = l.
Proof.
  unfold dict_of_pairs, dupdate.
  assert (G : forall acc : dict pyval, (forall k, In k (map fst l) -> ~ In k (dkeys acc)) -> NoDup (map fst l) ->
    fold_left (fun a kv => dset (fst kv) (snd kv) a) l acc = acc ++ l); [|intros H; apply (G []); auto].
  induction l as [|[k v] l IH]; intros acc Hd Hn; cbn [fold_left]; [rewrite app_nil_r; reflexivity|].
  cbn [map fst snd] in *. inversion Hn as [|? ? Hk Hn']; subst.
  assert (E : dset k v acc = acc ++ [(k, v)]).
  { pose proof (Hd k (or_introl eq_refl)) as Hk'. clear -Hk'. induction acc as [|[k' v'] acc IH]; [reflexivity|].
    cbn [dset]. cbn [dkeys map fst] in Hk'. destruct (str_eqb_spec k k') as [->|Hne]; [exfalso; apply Hk'; left; reflexivity|].
    cbn [app]. f_equal. apply IH. intros Hi; apply Hk'; right; exact Hi. }
  rewrite E, IH; [rewrite <- app_assoc; reflexivity| |exact Hn'].
  intros k2 Hi2 Hin. unfold dkeys in Hin. rewrite map_app in Hin. apply in_app_or in Hin as [Hin|Hin].
  - exact (Hd k2 (or_intror Hi2) Hin).
  - destruct Hin as [<-|[]]. exact (Hk Hi2).
Qed.
Lemma as_object_plain d : (forall k, In k reserved -> ~ In k (dkeys d)) -> as_object d = Ok (VDict (map (fun kv => (KStr (fst kv), snd kv)) d)).
Proof.
  intros H. unfold as_object, BIG_KEY.
  assert (G : forall k, In k reserved -> dget k d = None) by (intros k Hk; apply dget_None, H, Hk).
  rewrite !G by (unfold reserved; cbn [In]; tauto). reflexivity.
Qed.

Lemma of_json_single k x : of_json as_object (JObj [(k, x)]) = do v <- of_json as_object x; as_object [(k, v)].
Proof. rewrite of_json_obj. unfold of_json_d. destruct (of_json as_object x); reflexivity. Qed.
Lemma as_object_time x : as_object [(u "__time__", x)] = do t <- time_of_val x; Ok (VTime t). Proof. reflexivity. Qed.
Lemma as_object_delta x : as_object [(u "__delta__", x)] = do t <- delta_of_val x; Ok (VDelta t). Proof. reflexivity. Qed.
Lemma as_object_bytes x : as_object [(u "__bytes__", x)] = do t <- bytes_of_val x; Ok (VBytes t). Proof. reflexivity. Qed.
Lemma as_object_fixed x : as_object [(u "__fixed__", x)] = do t <- cd_of_val x; Ok (VDec t). Proof. reflexivity. Qed.
Lemma as_object_big x : as_object [(BIG_KEY, x)] = do t <- py_int x; Ok (VInt t). Proof. reflexivity. Qed.
Lemma time_of_fields t : time_of_val (VList (map VInt (dt_fields t))) =
  mk_datetime (dt_year t) (dt_month t) (dt_day t) (dt_hour t) (dt_minute t) (dt_second t) (dt_micro t).
Proof. reflexivity. Qed.
Lemma delta_of_ints a b : delta_of_val (VList [VInt a; VInt b]) = mk_timedelta 0 a 0 0 b. Proof. reflexivity. Qed.
Lemma jok_single k x : text_ok k -> jok x -> jok (JObj [(k, x)]).
Proof. intros H1 H2. apply jok_obj. constructor; [split; assumption|constructor]. Qed.

(** ** float texts *)
Lemma float_text_ok r : float_repr r -> float_json (float_text r) /\ repr_of_text (float_text r) = r.
Proof.
  intros [->|[->|[->|(f & -> & Hf & Hx & Hl)]]].
  - split; [left|]; reflexivity.
  - split; [right; left|]; reflexivity.
  - split; [right; right; left|]; reflexivity.
  - assert (E : float_text (frepr_text f) = frepr_text f).
    { unfold float_text. destruct (frepr_head f Hf) as (c & r & E & Hc). pose proof (numhead_range _ Hc) as R.
      destruct (str_eqb_spec (frepr_text f) (u "nan")) as [E'|_]. { rewrite E in E'. injection E' as -> _. cbn in R. lia. }
      destruct (str_eqb_spec (frepr_text f) (u "inf")) as [E'|_]. { rewrite E in E'. injection E' as -> _. cbn in R. lia. }
      destruct (str_eqb_spec (frepr_text f) (u "-inf")) as [E'|_]; [|reflexivity].
      exfalso. destruct (frepr_text_parts f) as (ex & Ep & _). rewrite E' in Ep. destruct Hf as (Hi & _ & Hne & _).
      destruct (fr_neg f); cbn [sgn_str app u] in Ep.
      - injection Ep as Ep. destruct (fr_int f) as [|d ip]; [congruence|]. cbn [app] in Ep. injection Ep as Ed _.
        pose proof (alld_head _ _ _ Hi eq_refl) as D. rewrite <- Ed in D. discriminate.
      - destruct (fr_int f) as [|d ip]; [congruence|]. cbn [app] in Ep. injection Ep as Ed _.
        pose proof (alld_head _ _ _ Hi eq_refl) as D. rewrite <- Ed in D. discriminate. }
    rewrite E. split; [right; right; right; exists f; auto|apply repr_of_text_frepr; exact Hf].
Qed.

(** ** the round trip *)
Definition rt (v w : pyval) : Prop :=
  exists j v', to_json w = Ok j /\ jok j /\ of_json as_object j = Ok v' /\ same v v'.

(** [wraps v w]: w is v with some ints replaced by their wrapped form *)
Inductive wraps : pyval -> pyval -> Prop :=
| wr_keep v : match v with VList _ | VTuple _ | VDict _ => False | _ => True end -> wraps v v
| wr_int z s : py_int_str z = Ok s -> wraps (VInt z) (VDict [(KStr BIG_KEY, VStr s)])
| wr_list l m : Forall2 wraps l m -> wraps (VList l) (VList m)
| wr_tuple l m : Forall2 wraps l m -> wraps (VTuple l) (VTuple m)
| wr_dict d e : Forall2 (fun x y => fst x = fst y /\ wraps (snd x) (snd y)) d e -> wraps (VDict d) (VDict e).
Lemma wraps_refl v : wraps v v.
Proof.
  induction v as [| | | | | | | | | |l IH|l IH|d IH|] using pyval_nested_ind; try (apply wr_keep; exact I).
  - apply wr_list. induction IH; constructor; assumption.
  - apply wr_tuple. induction IH; constructor; assumption.
  - apply wr_dict. induction IH; constructor; auto.
Qed.
Lemma encode_int_wraps z w : encode_int z = Ok w -> wraps (VInt z) w.
Proof.
  unfold encode_int. destruct (mongo_ok z).
  - intros H; injection H as <-. apply wraps_refl.
  - destruct (py_int_str z) as [s|e] eqn:E; cbn [bindr]; [|discriminate]. intros H; injection H as <-. apply wr_int; exact E.
Qed.
Lemma eid_wraps v : (forall w, encode_ints_in_dict v = Ok w -> wraps v w) /\ (forall w, eid_item v = Ok w -> wraps v w).
Proof.
  induction v as [| |z| | | | | | | |l IH|l IH|d IH|] using pyval_nested_ind;
    try (split; intros w H; injection H as <-; apply wraps_refl).
  - split; intros w H; [injection H as <-; apply wraps_refl|apply encode_int_wraps; exact H].
  - split; intros w H; [injection H as <-; apply wraps_refl|].
    unfold eid_item in H. destruct (eid_elems l) as [l'|e] eqn:E; cbn [bindr] in H; [|discriminate]. injection H as <-.
    apply wr_list. revert l' E. induction IH as [|x l [Hx1 Hx2] HF IHl]; intros l' E; [injection E as <-; constructor|].
    rewrite eid_elems_cons in E. destruct (eid_elem x) as [x'|e] eqn:Ex; cbn [bindr] in E; [|discriminate].
    destruct (eid_elems l) as [r|e] eqn:Er; cbn [bindr] in E; [|discriminate]. injection E as <-.
    constructor; [|apply IHl; reflexivity].
    destruct x; cbn [eid_elem] in Ex; try (injection Ex as <-; apply wraps_refl); [apply encode_int_wraps; exact Ex | apply Hx1; exact Ex].
  - assert (G : forall d', eid_items d = Ok d' -> Forall2 (fun x y => fst x = fst y /\ wraps (snd x) (snd y)) d d').
    { induction IH as [|[k x] d [Hx1 Hx2] HF IHd]; intros d' E; [injection E as <-; constructor|].
      rewrite eid_items_cons in E. destruct (eid_item x) as [x'|e] eqn:Ex; cbn [bindr] in E; [|discriminate].
      destruct (eid_items d) as [r|e] eqn:Er; cbn [bindr] in E; [|discriminate]. injection E as <-.
      constructor; [split; [reflexivity|apply Hx2; exact Ex]|apply IHd; reflexivity]. }
    assert (H : forall w, encode_ints_in_dict (VDict d) = Ok w -> wraps (VDict d) w).
    { intros w. rewrite eid_dict. destruct (eid_items d) as [d'|e]; cbn [bindr]; [|discriminate]. intros H; injection H as <-. apply wr_dict, G; reflexivity. }
    split; [exact H|]. intros w Hw. apply H. exact Hw.
Qed.

Lemma storable_list l : storable (VList l) <-> Forall storable l.
Proof. induction l as [|x l IH]; cbn [storable]; [split; auto|]. rewrite Forall_cons_iff, <- IH. reflexivity. Qed.
Definition skey (k : pykey) : Prop := exists s, k = KStr s /\ text_ok s /\ ~ In s reserved.
Lemma storable_dict d : storable (VDict d) <-> NoDup (map fst d) /\ Forall (fun kv => skey (fst kv) /\ storable (snd kv)) d.
Proof.
  cbn [storable]. apply and_iff_compat_l.
  induction d as [|[k x] d IH]; [split; auto|]. rewrite Forall_cons_iff, <- IH. cbn [fst snd]. unfold skey. tauto.
Qed.

(** the wrapping never fails on storable values *)
Lemma encode_int_ok z : int_ok z -> exists w, encode_int z = Ok w.
Proof.
  intros H. apply int_ok_str in H. unfold encode_int. destruct (mongo_ok z); [eexists; reflexivity|]. rewrite H. eexists; reflexivity.
Qed.
Lemma eid_ok v : storable v -> (exists w, encode_ints_in_dict v = Ok w) /\ (exists w, eid_item v = Ok w).
Proof.
  induction v as [| |z| | | | | | | |l IH|l IH|d IH|] using pyval_nested_ind; intros HS; try (split; eexists; reflexivity).
  - split; [eexists; reflexivity|]. exact (encode_int_ok z HS).
  - split; [eexists; reflexivity|]. apply storable_list in HS. unfold eid_item.
    assert (G : exists l', eid_elems l = Ok l').
    { induction IH as [|x l Hx HF IHl]; [eexists; reflexivity|]. apply Forall_cons_iff in HS as [Sx Sl].
      destruct (IHl Sl) as (l' & E). destruct (Hx Sx) as ((w1 & W1) & _). rewrite eid_elems_cons, E.
      assert (X : exists x', eid_elem x = Ok x').
      { destruct x; cbn [eid_elem]; try (eexists; reflexivity); [exact (encode_int_ok z Sx)|eexists; exact W1]. }
      destruct X as (x' & ->). eexists; reflexivity. }
    destruct G as (l' & ->). eexists; reflexivity.
  - apply storable_dict in HS as [_ HS].
    assert (G : exists d', eid_items d = Ok d').
    { induction IH as [|[k x] d Hx HF IHd]; [eexists; reflexivity|]. apply Forall_cons_iff in HS as [[_ Sx] Sd]. cbn [snd] in *.
      destruct (IHd Sd) as (d' & E). destruct (Hx Sx) as (_ & (w2 & W2)). rewrite eid_items_cons, E, W2. eexists; reflexivity. }
    destruct G as (d' & E). split; (eexists; unfold eid_item; rewrite eid_dict, E; reflexivity).
Qed.

Lemma vdt_mk t : vdt t -> mk_datetime (dt_year t) (dt_month t) (dt_day t) (dt_hour t) (dt_minute t) (dt_second t) (dt_micro t) = Ok t.
Proof.
  intros H. unfold mk_datetime. pose proof H as H'. unfold vdt, datetime_valid in H'.
  assert (dt_day t <= 31)%Z.
  { pose proof (dim_bounds (dt_year t) (dt_month t)). lia. }
  assert (forallb Time.c_int [dt_year t; dt_month t; dt_day t; dt_hour t; dt_minute t; dt_second t; dt_micro t] = true) as ->.
  { cbn [forallb]. unfold Time.c_int. change (2 ^ 31)%Z with 2147483648%Z. lia. }
  cbn [negb]. replace (mkdt (dt_year t) (dt_month t) (dt_day t) (dt_hour t) (dt_minute t) (dt_second t) (dt_micro t)) with t by (destruct t; reflexivity).
  unfold vdt in H. cbv zeta. rewrite H. reflexivity.
Qed.
Lemma vtd_mk t : vtd t -> mk_timedelta 0 (td_days t) 0 0 (td_secs t) = Ok t.
Proof.
  intros (H1 & H2 & H3). unfold mk_timedelta. cbv zeta.
  replace (((0 * 7 + td_days t) * 24 + 0) * 3600 + 0 * 60 + td_secs t)%Z with (td_secs t + td_days t * 86400)%Z by lia.
  rewrite Z.div_add, Z.mod_add, Z.div_small, Z.mod_small by lia. rewrite Z.add_0_l.
  rewrite (proj2 (Z.leb_le _ _)), (proj2 (Z.leb_le _ _)) by lia. cbn [andb]. destruct t as [d s r]. cbn [td_days td_secs td_raw] in *.
  f_equal. f_equal. unfold get_raw_seconds. unfold tot in H3; cbn [td_days td_secs] in H3. lia.
Qed.

Theorem round_trip v : storable v -> forall w, wraps v w -> rt v w.
Proof.
  induction v as [|b|z|r|s|b|d|d|t|t|l IH|l IH|d IH|i] using pyval_nested_ind; intros HS w HW; inversion HW; subst; try contradiction; unfold rt.
  - exists JNull, VNone. repeat split; constructor.
  - exists (JBool b), (VBool b). repeat split; constructor.
  - pose proof HS as HS'. apply int_ok_str in HS. exists (JInt z), (VInt z). cbn [to_json]. rewrite HS. repeat split; [exact HS'|constructor].
  - match goal with H : py_int_str z = Ok ?s0 |- _ => destruct (int_of_str_of_Z _ _ H) as [Es Ei] end.
    eexists _, (VInt z). split; [reflexivity|]. split; [|split; [|constructor]].
    + apply jok_single; cbn [jok].
      * apply text_ok_ascii. intros c Hc. cbn in Hc. lia.
      * subst. apply text_ok_num. intros c Hc. exact (str_of_Z_numchar _ c Hc).
    + rewrite of_json_single. cbn [of_json bindr]. rewrite as_object_big. cbn [py_int]. rewrite Ei. reflexivity.
  - destruct (float_text_ok r HS) as [F1 F2]. eexists _, _. split; [reflexivity|]. split; [exact F1|]. split; [reflexivity|].
    rewrite F2. constructor.
  - exists (JStr s), (VStr s). repeat split; [exact HS|constructor].
  - eexists _, (VBytes b). split; [reflexivity|]. split; [|split; [|constructor]].
    + apply jok_single; cbn [jok]; apply text_ok_ascii; intros c Hc.
      * cbn in Hc. lia.
      * apply hex_of_bytes_chars in Hc; [lia|exact HS].
    + rewrite of_json_single. cbn [of_json bindr]. rewrite as_object_bytes. cbn [bytes_of_val]. rewrite fromhex_hex by exact HS. reflexivity.
  - cbn [storable] in HS. pose proof (constructed_wf _ HS) as Hw. pose proof Hw as (n & Hn & Hr & _).
    cbn [to_json]. pose proof (fix_precision_stores d) as S. rewrite (has_units_floor d n Hn), (store_range n Hr) in S.
    destruct S as (x & Ex & Ux & Wx). rewrite Ex. cbn [bindr].
    destruct (cd_of_str_round_trip false x n Wx Ux) as (y & Ey & Uy & _).
    eexists _, (VDec y). split; [reflexivity|]. split; [|split; [|exact (same_dec d y n Hn Uy)]].
    + apply jok_single; cbn [jok].
      * apply text_ok_ascii; intros c Hc. cbn in Hc. lia.
      * apply text_ok_num. intros c Hc. unfold dec_str in Hc; exact (fd_to_str_numchar false _ c Hc).
    + rewrite of_json_single. cbn [of_json bindr]. rewrite as_object_fixed. cbn [cd_of_val]. unfold dec_str. rewrite Ey. reflexivity.
  - cbn [storable] in HS. apply is_datetime_valid in HS. pose proof HS as Hv. unfold vdt, datetime_valid in Hv.
    assert (dt_day t <= 31)%Z by (pose proof (dim_bounds (dt_year t) (dt_month t)); lia).
    eexists _, (VTime t). split; [reflexivity|]. split; [|split; [|constructor]].
    + apply jok_single.
      * apply text_ok_ascii; intros c Hc. cbn in Hc. lia.
      * apply jok_jints. unfold dt_fields. repeat constructor; apply int_ok_small; lia.
    + rewrite of_json_single, of_json_jints. cbn [bindr]. rewrite as_object_time, time_of_fields, vdt_mk by exact HS. reflexivity.
  - cbn [storable] in HS. apply is_timedelta_vtd in HS. pose proof HS as (Hv1 & Hv2 & _).
    eexists _, (VDelta t). split; [reflexivity|]. split; [|split; [|constructor]].
    + apply jok_single.
      * apply text_ok_ascii; intros c Hc. cbn in Hc. lia.
      * apply jok_jints. repeat constructor; apply int_ok_small; lia.
    + rewrite of_json_single, of_json_jints. cbn [bindr map]. rewrite as_object_delta, delta_of_ints, vtd_mk by exact HS. reflexivity.
  - apply storable_list in HS. match goal with H : Forall2 wraps l _ |- _ => rename H into HF end.
    assert (G : exists js vs, to_json_l m = Ok js /\ Forall jok js /\ of_json_l as_object js = Ok vs /\ Forall2 same l vs).
    { clear HW. revert m HF. induction l as [|x l IHl]; intros m HF; inversion HF as [|? y ? m' Hxy Hm]; subst; [exists [], []; repeat split; constructor|].
      apply Forall_cons_iff in IH as [Ix IH]. apply Forall_cons_iff in HS as [Sx HS].
      destruct (Ix Sx y Hxy) as (j & v' & J1 & J2 & J3 & J4). destruct (IHl IH HS m' Hm) as (js & vs & K1 & K2 & K3 & K4).
      exists (j :: js), (v' :: vs). rewrite to_json_l_cons, J1, K1, of_json_l_cons, J3, K3. repeat split; constructor; assumption. }
    destruct G as (js & vs & K1 & K2 & K3 & K4). exists (JList js), (VList vs).
    rewrite to_json_list, K1, of_json_list, K3. repeat split; [apply jok_list; exact K2|constructor; exact K4].
  - apply storable_dict in HS as [HN HS]. match goal with H : Forall2 _ d _ |- _ => rename H into HF end.
    assert (G : exists js vs, to_json_d e = Ok js /\ Forall (fun kv => text_ok (fst kv) /\ jok (snd kv)) js /\ of_json_d as_object js = Ok vs /\
      Forall2 (fun x y => fst x = KStr (fst y) /\ same (snd x) (snd y)) d vs /\ Forall (fun y : pystr * pyval => ~ In (fst y) reserved) vs).
    { clear HW HN. revert e HF. induction d as [|[k x] d IHl]; intros e HF; inversion HF as [|? y ? m' [Hk Hxy] Hm]; subst; [exists [], []; repeat split; constructor|].
      apply Forall_cons_iff in IH as [Ix IH]. apply Forall_cons_iff in HS as [[Sk Sx] HS]. destruct y as [k' y]. cbn [fst snd] in *. subst k'.
      destruct Sk as (s & -> & Ts & Rs).
      destruct (Ix Sx y Hxy) as (j & v' & J1 & J2 & J3 & J4). destruct (IHl IH HS m' Hm) as (js & vs & K1 & K2 & K3 & K4 & K5).
      exists ((s, j) :: js), ((s, v') :: vs). rewrite to_json_d_cons. cbn [json_key bindr]. rewrite J1, K1, of_json_d_cons, J3, K3.
      repeat split; try constructor; auto. }
    destruct G as (js & vs & K1 & K2 & K3 & K4 & K5).
    exists (JObj js), (VDict (map (fun kv => (KStr (fst kv), snd kv)) vs)).
    rewrite to_json_dict, K1, of_json_obj, K3. cbn [bindr].
    assert (Hk : map fst d = map (fun y => KStr (fst y)) vs).
    { clear -K4. induction K4 as [|x y d vs [H _] _ IH]; [reflexivity|]. cbn [map]. rewrite H, IH. reflexivity. }
    assert (Hnd : NoDup (map fst vs)).
    { rewrite Hk in HN. clear -HN. induction vs as [|y vs IH]; [constructor|]. cbn [map] in *. inversion HN as [|? ? Hn Hd]; subst.
      constructor; [|apply IH; exact Hd]. intros Hi. apply Hn. apply in_map_iff in Hi as (y' & E & Hi). apply in_map_iff. exists y'. split; [congruence|exact Hi]. }
    rewrite dict_of_pairs_nodup by exact Hnd.
    rewrite as_object_plain.
    2: { intros k Hr Hi. unfold dkeys in Hi. apply in_map_iff in Hi as (y & <- & Hi). rewrite Forall_forall in K5. exact (K5 y Hi Hr). }
    repeat split; [apply jok_obj; exact K2|]. constructor. clear -K4. induction K4 as [|x y d vs [H1 H2] _ IH]; constructor; auto.
Qed.

Theorem encode_decode v : storable v -> exists t v', encode v = Ok t /\ decode (Some t) = Ok v' /\ same v v'.
Proof.
  intros HS. assert (P : exists w, preprocess v = Ok w /\ wraps v w).
  { destruct v; try (eexists; split; [reflexivity|apply wraps_refl]).
    - destruct (encode_int_ok z HS) as (w & E). exists w. split; [exact E|apply encode_int_wraps; exact E].
    - destruct (proj1 (eid_ok _ HS)) as (w & E). exists w. split; [exact E|apply (proj1 (eid_wraps _)); exact E]. }
  destruct P as (w & Pw & Ww). destruct (round_trip v HS w Ww) as (j & v' & J1 & J2 & J3 & J4).
  exists (print_json j), v'. unfold encode. rewrite Pw. cbn [bindr]. rewrite J1. cbn [bindr]. split; [reflexivity|].
  unfold decode. rewrite loads_print by exact J2. rewrite J3. split; [reflexivity|exact J4].
Qed.
