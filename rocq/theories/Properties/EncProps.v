(** * C13-C17: encoding of stored values *)
From Verif Require Import Model.Base Model.Dec Model.Time Model.Value Model.Encoder.
From Verif Require Import Spec.DecSpec Spec.TimeSpec Spec.EncSpec Proofs.BaseFacts Proofs.DecFacts Proofs.DecOps Proofs.DecCanon.
From Verif Require Import Proofs.JsonFacts Proofs.ParseFacts Proofs.EncFacts Proofs.EncFacts2 Proofs.EncFacts3 Proofs.TimeFacts.
From Coq Require Import Lia.

(** ** C13 *)
(** decode(encode(v)) is v, for every storable value (Spec/EncSpec.v). *)
Theorem C13_round_trip v :
  storable v -> exists t w, encode v = Ok t /\ decode (Some t) = Ok w /\ same v w.
Proof. exact (encode_decode v). Qed.

Definition c13_value : pyval :=
  VDict [(KStr (u "a"), VInt (2 ^ 200)); (KStr (u "b"), VList [VInt (- 2 ^ 63); VNone; VBytes [0%N; 255%N]; VList [VInt (2 ^ 90)]]);
         (KStr [233%N; 128512%N; 34%N; 10%N], VDict [(KStr (u "t"), VTime (mkdt 2024 2 29 23 59 59 999999)); (KStr [], VDelta (mktd (-1) 86399 (-1)))]);
         (KStr (u "d"), VDec (mkfd true 15 (-1))); (KStr (u "f"), VFloat (u "1e-05"))].
Lemma int_ok_100 z : (Z.abs z < 10 ^ 100)%Z -> int_ok z.
Proof.
  intros H. unfold int_ok. eapply Z.lt_le_trans; [exact H|]. clear H. apply Z.pow_le_mono_r; lia.
Qed.
Example C13_example : storable c13_value.
Proof.
  cbn [c13_value storable]. split.
  { cbn [map fst]. repeat constructor; cbn [In]; intros H; repeat destruct H as [H|H]; try discriminate; try contradiction. }
  assert (T : forall s, forallb (fun c => N.ltb c 55296) s = true -> text_ok s).
  { intros s H. apply text_ok_ascii. intros c Hc. rewrite forallb_forall in H. apply H in Hc. apply N.ltb_lt in Hc. exact Hc. }
  assert (R : forall s, negb (str_mem s reserved) = true -> ~ In s reserved).
  { intros s H Hi. apply str_mem_spec in Hi. rewrite Hi in H. discriminate. }
  assert (Z1 : int_ok (2 ^ 200)) by (apply int_ok_100; vm_compute; reflexivity).
  assert (Z2 : int_ok (- 2 ^ 63)) by (apply int_ok_100; vm_compute; reflexivity).
  assert (Z3 : int_ok (2 ^ 90)) by (apply int_ok_100; vm_compute; reflexivity).
  split; [eexists; split; [reflexivity|split; [apply T; reflexivity|apply R; reflexivity]]|]. split; [exact Z1|].
  split; [eexists; split; [reflexivity|split; [apply T; reflexivity|apply R; reflexivity]]|].
  split; [split; [exact Z2|]; split; [exact I|]; split; [repeat constructor|]; split; [split; [exact Z3|exact I]|exact I]|].
  split. { eexists; split; [reflexivity|split; [|apply R; reflexivity]]. cbn [text_ok]. clear; repeat split; try lia. }
  split.
  { split. { clear; cbn [map fst]. repeat constructor; cbn [In]; intros H; repeat destruct H as [H|H]; try discriminate; try contradiction. }
    split; [eexists; split; [reflexivity|split; [apply T; reflexivity|apply R; reflexivity]]|].
    split; [exact (isdt 2024 2 29 23 59 59 999999 _ eq_refl)|].
    split; [eexists; split; [reflexivity|split; [apply T; reflexivity|apply R; reflexivity]]|].
    split; [exact (istd 0 0 0 0 (-1) _ eq_refl)|exact I]. }
  split; [eexists; split; [reflexivity|split; [apply T; reflexivity|apply R; reflexivity]]|].
  split; [apply (c_str (u "-1.5")); vm_compute; reflexivity|].
  split; [eexists; split; [reflexivity|split; [apply T; reflexivity|apply R; reflexivity]]|].
  split; [|exact I]. clear. right; right; right. exists (mkfrepr false (u "1") [] (Some (true, u "05"))).
  split; [reflexivity|]. split; [|split; [right; discriminate|right; discriminate]].
  clear; repeat split; try reflexivity; cbn; try discriminate; clear; lia.
Qed.

(** ** C14 *)
(** The round trip succeeds exactly on values of JSON shape: no tuples, raw Decimals or other
    objects, only string keys, none of them reserved. *)
Theorem C14_exactly v :
  leaves_ok v ->
  ((exists t w, encode v = Ok t /\ decode (Some t) = Ok w /\ same v w) <-> json_shape v).
Proof.
  intros HL. split.
  - intros (t & w & _ & D & S). eapply same_shape; [exact S|]. eapply decode_shape; exact D.
  - intros HS. apply encode_decode. apply storable_iff. split; assumption.
Qed.
(** A tuple is stored as the list of its elements. *)
Theorem C14_tuple_becomes_list l :
  storable (VList l) ->
  exists t l', encode (VTuple l) = Ok t /\ decode (Some t) = Ok (VList l') /\ Forall2 same l l'.
Proof.
  intros HS. destruct (encode_decode (VList l) HS) as (t & w & E & D & S).
  assert (E2 : encode (VTuple l) = encode (VList l)) by reflexivity.
  exists t. inversion S as [v| |l0 m HF|]; subst.
  - exists l. rewrite E2. repeat split; try assumption. clear. induction l; constructor; [constructor|assumption].
  - exists m. rewrite E2. repeat split; assumption.
Qed.
(** An integer key is read back as its decimal text. *)
Theorem C14_int_key_becomes_text z v :
  int_ok z -> storable v -> exists t w, encode (VDict [(KInt z, v)]) = Ok t /\
    decode (Some t) = Ok (VDict [(KStr (str_of_Z z), w)]) /\ same v w.
Proof.
  intros HZ HS.
  assert (HD : storable (VDict [(KStr (str_of_Z z), v)])).
  { apply storable_dict. split; [repeat constructor; intros []|]. constructor; [|constructor]. cbn [fst snd]. split; [|exact HS].
    exists (str_of_Z z). split; [reflexivity|]. split; [apply text_ok_num; intros c Hc; exact (DecText.str_of_Z_numchar _ c Hc)|].
    destruct (str_of_Z_head z) as (c & r & E & Hc). rewrite E. unfold reserved. cbn [In u]. apply numhead_range in Hc.
    intros H. repeat destruct H as [H|H]; try contradiction; injection H as H _; subst c; cbn in Hc; lia. }
  destruct (encode_decode _ HD) as (t & w & E & D & S).
  assert (E2 : encode (VDict [(KInt z, v)]) = encode (VDict [(KStr (str_of_Z z), v)])).
  { unfold encode, preprocess. rewrite !eid_dict. unfold eid_items. destruct (eid_item v) as [x|e]; [|reflexivity]. cbn [bindr].
    rewrite !to_json_dict. unfold to_json_d. cbn [json_key]. apply int_ok_str in HZ. rewrite HZ. reflexivity. }
  inversion S as [v0| | |d e HF]; subst.
  - exists t, v. rewrite E2. repeat split; try assumption. constructor.
  - inversion HF as [|? [k y] ? ? [Hk Hy] HF']; subst. inversion HF'; subst. cbn [fst snd] in *. subst k.
    exists t, y. rewrite E2. repeat split; assumption.
Qed.
(** So is every other key that JSON allows: True, False and None become the texts true, false and null. *)
Theorem C14_constant_keys_become_text v :
  storable v ->
  forall k s, In (k, s) [(KBool true, u "true"); (KBool false, u "false"); (KNone, u "null")] ->
  exists t w, encode (VDict [(k, v)]) = Ok t /\ decode (Some t) = Ok (VDict [(KStr s, w)]) /\ same v w.
Proof.
  intros HS k s Hk.
  assert (HD : storable (VDict [(KStr s, v)])).
  { apply storable_dict. split; [repeat constructor; intros []|]. constructor; [|constructor]. cbn [fst snd]. split; [|exact HS].
    exists s. split; [reflexivity|]. cbn [In] in Hk.
    destruct Hk as [E|[E|[E|[]]]]; injection E as <- <-;
      (split; [cbn [text_ok u]; vm_compute; intuition discriminate|]);
      unfold reserved; cbn [In u]; intros H; repeat destruct H as [H|H]; try contradiction; discriminate H. }
  destruct (encode_decode _ HD) as (t & w & E & D & S).
  assert (E2 : encode (VDict [(k, v)]) = encode (VDict [(KStr s, v)])).
  { unfold encode, preprocess. rewrite !eid_dict. unfold eid_items. destruct (eid_item v) as [x|e]; [|reflexivity]. cbn [bindr].
    rewrite !to_json_dict. unfold to_json_d. cbn [In] in Hk. destruct Hk as [F|[F|[F|[]]]]; injection F as <- <-; reflexivity. }
  inversion S as [v0| | |d e HF]; subst.
  - exists t, v. rewrite E2. repeat split; try assumption. constructor.
  - inversion HF as [|? [k' y] ? ? [Hk' Hy] HF']; subst. inversion HF'; subst. cbn [fst snd] in *. subst k'.
    exists t, y. rewrite E2. repeat split; assumption.
Qed.
(** A key of any other kind (a tuple, say) is refused: nothing is stored. *)
Theorem C14_other_keys_refused i v : exists e, encode (VDict [(KOther i, v)]) = Err e.
Proof.
  unfold encode, preprocess. rewrite eid_dict. unfold eid_items. destruct (eid_item v) as [x|e]; [|exists e; reflexivity]. cbn [bindr].
  rewrite to_json_dict. unfold to_json_d. cbn [json_key bindr]. eexists; reflexivity.
Qed.
(** Keys that become equal merge: {1: 'a', '1': 'b'} is read back as {'1': 'b'}. *)
Theorem C14_keys_merge_refuted :
  exists t, encode (VDict [(KInt 1, VStr (u "a")); (KStr (u "1"), VStr (u "b"))]) = Ok t /\
            decode (Some t) = Ok (VDict [(KStr (u "1"), VStr (u "b"))]).
Proof.
  exists (u "{""1"":""a"",""1"":""b""}"). split; vm_compute; reflexivity.
Qed.
(** A dict with a reserved key is never read back as a dict. *)
Theorem C14_reserved_key d t w :
  (exists k x, In (k, x) d /\ exists s, k = KStr s /\ In s reserved) ->
  encode (VDict d) = Ok t -> decode (Some t) = Ok w -> forall e, same (VDict d) (VDict e) -> w <> VDict e.
Proof.
  intros (k & x & Hi & s & -> & Hr) _ D e S E. subst w. apply decode_shape in D.
  assert (HS : json_shape (VDict d)) by (eapply same_shape; eassumption).
  apply shape_dict in HS. rewrite Forall_forall in HS. destruct (HS _ Hi) as [(s' & E & Hn) _]. cbn [fst] in E. injection E as <-. contradiction.
Qed.
(** It becomes a value of another type, or reading it raises. *)
Theorem C14_reserved_examples :
  (exists t, encode (VDict [(KStr (u "__bytes__"), VStr (u "00ff"))]) = Ok t /\ decode (Some t) = Ok (VBytes [0%N; 255%N])) /\
  (exists t, encode (VDict [(KStr (u "__time__"), VStr (u "x"))]) = Ok t /\ decode (Some t) = Err EType).
Proof.
  split.
  - exists (u "{""__bytes__"":""00ff""}"). split; vm_compute; reflexivity.
  - exists (u "{""__time__"":""x""}"). split; vm_compute; reflexivity.
Qed.

(** With the key __time__ and three to seven numbers that are a date it becomes that date; what is not given is zero. *)
Theorem C14_reserved_time y m d rest : (List.length rest <= 4)%nat ->
  let t := mkdt y m d (nth 0 rest 0%Z) (nth 1 rest 0%Z) (nth 2 rest 0%Z) (nth 3 rest 0%Z) in is_datetime t ->
  exists x, encode (VDict [(KStr (u "__time__"), VList (map VInt (y :: m :: d :: rest)))]) = Ok x /\ decode (Some x) = Ok (VTime t).
Proof.
  intros L t HD. apply is_datetime_valid in HD. pose proof HD as Hv. unfold vdt, datetime_valid in Hv.
  assert (dt_day t <= 31)%Z by (pose proof (dim_bounds (dt_year t) (dt_month t)); lia).
  assert (R : Forall (fun z => (0 <= z <= 999999)%Z) (y :: m :: d :: rest)).
  { subst t. cbn [dt_year dt_month dt_day dt_hour dt_minute dt_second dt_micro] in *.
    destruct rest as [|a [|b [|c [|e [|? ?]]]]]; cbn [nth List.length] in *; repeat (apply Forall_cons; [lia|]); try apply Forall_nil; exfalso; lia. }
  assert (T : time_of_val (VList (map VInt (y :: m :: d :: rest))) = mk_datetime (dt_year t) (dt_month t) (dt_day t) (dt_hour t) (dt_minute t) (dt_second t) (dt_micro t)).
  { subst t. destruct rest as [|a [|b [|c [|e [|? ?]]]]]; try reflexivity. exfalso. cbn [List.length] in L. lia. }
  set (l := y :: m :: d :: rest) in *. clearbody l. exists (print_json (JObj [(u "__time__", jints l)])). split.
  - unfold encode, preprocess. rewrite eid_dict, eid_items_cons.
    assert (E : eid_elems (map VInt l) = Ok (map VInt l)).
    { clear - R. induction R as [|z l H _ IH]; [reflexivity|]. cbn [map]. rewrite eid_elems_cons, IH. cbn [eid_elem]. unfold eid_elem, encode_int.
      replace (mongo_ok z) with true; [reflexivity|]. symmetry. unfold mongo_ok. apply andb_true_intro. split; apply Z.ltb_lt; lia. }
    cbn [eid_item]. rewrite E. cbn [bindr]. unfold eid_items. cbn [bindr]. rewrite to_json_dict. unfold to_json_d. cbn [json_key bindr].
    assert (J : to_json (VList (map VInt l)) = Ok (jints l)).
    { rewrite to_json_list. assert (E2 : to_json_l (map VInt l) = Ok (map JInt l)); [|rewrite E2; reflexivity].
      clear - R. induction R as [|z l H _ IH]; [reflexivity|]. cbn [map]. rewrite to_json_l_cons, IH. cbn [to_json].
      assert (O : int_ok z) by (apply int_ok_small; lia). apply int_ok_str in O. rewrite O. reflexivity. }
    rewrite J. reflexivity.
  - unfold decode. rewrite loads_print.
    + rewrite of_json_single, of_json_jints. cbn [bindr]. rewrite as_object_time, T, vdt_mk by exact HD. reflexivity.
    + apply jok_single.
      * apply text_ok_ascii; intros c Hc. cbn in Hc. lia.
      * apply jok_jints. eapply Forall_impl; [|exact R]. intros z Hz. cbv beta in Hz. apply int_ok_small. lia.
Qed.

(** ** C15 *)
(** For values whose lists sit directly under dicts and hold no further lists, every bare
    integer of the stored text is within the open interval. *)
Theorem C15_no_raw_big_int_partial v t :
  storable v -> lists_under_dicts v -> encode v = Ok t ->
  exists p, plain_loads t = Ok p /\ ints_in_range p.
Proof. intros HS HL H. destruct (encode_plain v t HS HL H) as (p & P1 & P2 & _). eauto. Qed.
Definition c15_value : pyval := VDict [(KStr (u "a"), VInt (2 ^ 70)); (KStr (u "b"), VList [VInt (- 2 ^ 63); VDict [(KStr (u "c"), VInt 7)]])].
Example C15_example : lists_under_dicts c15_value /\
  exists t, encode c15_value = Ok t /\ t = u "{""a"":{""__big_int__"":""1180591620717411303424""},""b"":[{""__big_int__"":""-9223372036854775808""},{""c"":7}]}".
Proof. split; [cbn; tauto|]. eexists. split; [|reflexivity]. vm_compute. reflexivity. Qed.
(** Missing from C15: lists at top level and lists inside lists, for which it is false. *)
Theorem C15_refuted :
  (exists t, encode (VList [VInt (2 ^ 63)]) = Ok t /\ plain_loads t = Ok (VList [VInt (2 ^ 63)]) /\ ~ ints_in_range (VList [VInt (2 ^ 63)])) /\
  (exists t, encode (VDict [(KStr (u "a"), VList [VList [VInt (2 ^ 63)]])]) = Ok t /\
             plain_loads t = Ok (VDict [(KStr (u "a"), VList [VList [VInt (2 ^ 63)]])]) /\
             ~ ints_in_range (VDict [(KStr (u "a"), VList [VList [VInt (2 ^ 63)]])])).
Proof.
  split.
  - exists (u "[9223372036854775808]"). split; [vm_compute; reflexivity|]. split; [vm_compute; reflexivity|].
    cbn [ints_in_range]. change (2 ^ 63)%Z with 9223372036854775808%Z. lia.
  - exists (u "{""a"":[[9223372036854775808]]}"). split; [vm_compute; reflexivity|]. split; [vm_compute; reflexivity|].
    cbn [ints_in_range]. change (2 ^ 63)%Z with 9223372036854775808%Z. lia.
Qed.

(** ** C16 *)
(** The text is printable ASCII, its UTF-8 size is its length, and no space occurs outside
    string literals - for every value that can be encoded at all. *)
Theorem C16_text v t :
  leaves_ok v -> encode v = Ok t ->
  Forall (fun c => 32 <= c <= 126)%N t /\ utf8_len t = Ok (List.length t) /\ ~ In 32%N (outside false false t).
Proof.
  intros HL H. destruct (encode_chars v t HL H) as (j & -> & HJ). pose proof (print_json_pr j HJ) as HP.
  split; [exact HP|]. split; [exact (utf8_len_ascii _ HP)|].
  destruct (print_skel j HJ) as (sk & Hn & Ho). specialize (Ho []). rewrite app_nil_r in Ho. rewrite Ho. cbn [outside]. rewrite app_nil_r. exact Hn.
Qed.
Example C16_example : leaves_ok (VDict [(KStr [233%N; 32%N], VTuple [VInt 1; VStr [10%N]])]) /\
  encode (VDict [(KStr [233%N; 32%N], VTuple [VInt 1; VStr [10%N]])]) = Ok (u "{""\u00e9 "":[1,""\n""]}").
Proof.
  split; [|vm_compute; reflexivity]. cbn [leaves_ok text_ok map fst]. repeat split; try lia; try (repeat constructor; intros []).

Qed.
(** Equal decimals have equal text, except that zero keeps its sign. *)
Theorem C16_equal_decimals a b n :
  constructed a -> constructed b -> has_units a n -> has_units b n -> n <> 0%Z -> encode (VDec a) = encode (VDec b).
Proof.
  intros Ha Hb Ua Ub Hn. unfold encode, preprocess. cbn [bindr to_json].
  rewrite (fix_precision_value a b n); auto using constructed_wf.
Qed.
Theorem C16_equal_decimals_refuted :
  exists a b, constructed a /\ constructed b /\ cd_eq a b = true /\ encode (VDec a) <> encode (VDec b).
Proof.
  exists (mkfd false 0 0), (mkfd true 0 0).
  split; [apply (c_str (u "0")); vm_compute; reflexivity|]. split; [apply (c_str (u "-0")); vm_compute; reflexivity|].
  split; [vm_compute; reflexivity|]. vm_compute. discriminate.
Qed.

(** ** C17 *)
Theorem C17_convert_dict_partial v t :
  storable v -> lists_under_dicts v -> encode v = Ok t ->
  exists p w, plain_loads t = Ok p /\ convert_dict p = Ok w /\ decode (Some t) = Ok w.
Proof. intros HS HL H. destruct (encode_plain v t HS HL H) as (p & P1 & _ & w & P2 & P3). eauto. Qed.
(** Missing from C17: top-level lists and lists inside lists, whose elements convert_dict leaves alone. *)
Theorem C17_refuted :
  exists t p, encode (VDict [(KStr (u "a"), VList [VList [VBytes [1%N]]])]) = Ok t /\ plain_loads t = Ok p /\
    decode (Some t) = Ok (VDict [(KStr (u "a"), VList [VList [VBytes [1%N]]])]) /\
    convert_dict p = Ok (VDict [(KStr (u "a"), VList [VList [VDict [(KStr (u "__bytes__"), VStr (u "01"))]]])]).
Proof.
  exists (u "{""a"":[[{""__bytes__"":""01""}]]}"), (VDict [(KStr (u "a"), VList [VList [VDict [(KStr (u "__bytes__"), VStr (u "01"))]]])]).
  split; [vm_compute; reflexivity|]. split; [vm_compute; reflexivity|]. split; vm_compute; reflexivity.
Qed.

Print Assumptions C13_round_trip.
Print Assumptions C14_exactly.
Print Assumptions C14_tuple_becomes_list.
Print Assumptions C14_int_key_becomes_text.
Print Assumptions C14_keys_merge_refuted.
Print Assumptions C14_reserved_key.
Print Assumptions C14_reserved_examples.
Print Assumptions C15_no_raw_big_int_partial.
Print Assumptions C15_refuted.
Print Assumptions C16_text.
Print Assumptions C16_equal_decimals.
Print Assumptions C16_equal_decimals_refuted.
Print Assumptions C17_convert_dict_partial.
Print Assumptions C17_refuted.
