(** * C111: what is not stored reads as the declared default *)
From Coq Require Import Lia.
From Verif Require Import Model.Base Model.State Model.Value Model.Encoder Model.Hdf5 Model.Runtime Model.Driver Model.Heap Model.HeapDefaults.
From Verif Require Import Spec.DriverSpec Spec.HeapSpec Spec.DefaultSpec Proofs.BaseFacts Proofs.HeapFacts Proofs.HeapSim Proofs.HeapSafe Properties.DriverProps Properties.HeapProps.
Local Notation length := List.length (only parsing).

(** ** The default objects keep their values *)
Definition default_value (s : hstate) (r : nat) : pyval := match nth_error (hs_regs s) r with Some a => vof (hs_heap s) a | None => VNone end.
(** the objects in [ds] have values, those they had in [s0] *)
Definition kept (ds : list nat) (s0 s : hstate) : Prop :=
  forall r a, In r ds -> nth_error (hs_regs s0) r = Some a -> nth_error (hs_regs s) r = Some a /\ exists v, val (hs_heap s0) a = Some v /\ val (hs_heap s) a = Some v.
Lemma regs_later {A} (l m : list A) r a : nth_error l r = Some a -> nth_error (l ++ m) r = Some a.
Proof. intros H. rewrite nth_error_app1; [exact H|]. apply nth_error_Some. congruence. Qed.
(** what one statement does to registers and heap *)
Lemma hset_body_ext k l txn h d : ext h (snd (fst (hset_body k l txn h d))).
Proof.
  assert (HF : forall h d, match hfind k h d with Ok (_, h') => ext h h' | Err _ => True end).
  { intros h0 d0. assert (X : match from_disk k h0 d0 with Ok (_, h') => ext h0 h' | Err _ => True end).
    { unfold from_disk. destruct (value_from_disk k (hd_disk d0)) as [v|]; cbn; [|exact I]. pose proof (alloc_ext v h0) as E. destruct (alloc v h0). exact E. }
    unfold hfind. destruct (hd_bypass d0); [exact X|]. destruct (lget h0 k (hd_writes d0)); [apply ext_refl|]. destruct (lget h0 k (hd_cache d0)); [apply ext_refl|exact X]. }
  assert (HC : forall h, match hcoerce l h with Ok (_, h') => ext h h' | Err _ => True end).
  { intros h0. unfold hcoerce. destruct (nth_error h0 l) as [[v| | |]|]; try apply ext_refl. destruct v; try apply ext_refl;
      match goal with |- context [coerce ?x] => destruct (coerce x) as [y|]; cbn [bindr]; [|exact I]; pose proof (alloc_ext y h0) as E; destruct (alloc y h0); exact E end. }
  assert (HG : ext h (snd (fst (hget k h d)))). { unfold hget. specialize (HF h d). destruct (hfind k h d) as [[a h']|]; [exact HF|apply ext_refl]. }
  unfold hset_body. destruct (lget h k (hd_reads d)) as [a|].
  - specialize (HC h). destruct (hcoerce l h) as [[b h']|]; [exact HC|apply ext_refl].
  - destruct (hget k h d) as [[[b|e] h1] d1]; cbn [fst snd] in HG; [|exact HG]. specialize (HC h1). destruct (hcoerce l h1) as [[b' h2]|]; [eapply ext_trans; eassumption|exact HG].
Qed.
Lemma hget_ext k h d : ext h (snd (fst (hget k h d))).
Proof.
  unfold hget, hfind. assert (X : match from_disk k h d with Ok (_, h') => ext h h' | Err _ => True end).
  { unfold from_disk. destruct (value_from_disk k (hd_disk d)) as [v|]; cbn; [|exact I]. pose proof (alloc_ext v h) as E. destruct (alloc v h). exact E. }
  destruct (hd_bypass d).
  - destruct (from_disk k h d) as [[a h']|]; [exact X|apply ext_refl].
  - destruct (lget h k (hd_writes d)); [apply ext_refl|]. destruct (lget h k (hd_cache d)); [apply ext_refl|]. destruct (from_disk k h d) as [[a h']|]; [exact X|apply ext_refl].
Qed.
Lemma step_grows o s : (exists more, hs_regs (snd (hdo o s)) = hs_regs s ++ more) /\
  (ext (hs_heap s) (hs_heap (snd (hdo o s))) \/ exists r p a q, o = HMutate r p /\ nth_error (hs_regs s) r = Some a /\ hs_heap (snd (hdo o s)) = upd a q (hs_heap s)).
Proof.
  destruct s as [h d rt snap regs]. assert (S : exists more : list loc, regs = regs ++ more) by (exists []; symmetry; apply app_nil_r). cbn [hs_regs hs_heap].
  destruct o as [k|k r txn|o|r i|r o| |n|n|p| | | | ]; cbn [hdo].
  - pose proof (hget_ext k h d) as G. destruct (hget k h d) as [[[l|e] h'] d']; cbn [fst snd hs_regs hs_heap] in *; eauto.
  - destruct (nth_error regs r) as [l|]; [|split; [exact S|left; apply ext_refl]]. destruct (val h l) as [v|]; [|split; [exact S|left; apply ext_refl]].
    destruct (encode_kv_len k v) as [[kl vl]|e]; [|split; [exact S|left; apply ext_refl]]. destruct (deduct_write kl vl rt) as [[[]|e] rt']; [|split; [exact S|left; apply ext_refl]].
    pose proof (hset_body_ext k l txn h d) as G. destruct (hset_body k l txn h d) as [[b h'] d']. split; [exact S|left; exact G].
  - destruct (look regs o) as [o'|]; [|split; [exact S|left; apply ext_refl]]. unfold new. split; [eexists; reflexivity|left; apply ext_app].
  - destruct (nth_error regs r) as [l|]; [|split; [exact S|left; apply ext_refl]]. destruct (nth_error h l) as [ob|]; [|split; [exact S|left; apply ext_refl]].
    destruct (nth_error (parts ob) i); cbn [snd hs_regs hs_heap]; [split; [eexists; reflexivity|left; apply ext_refl]|split; [exact S|left; apply ext_refl]].
  - destruct (nth_error regs r) as [l|] eqn:R; [|split; [exact S|left; apply ext_refl]]. destruct (look regs o) as [o'|]; [|split; [exact S|left; apply ext_refl]].
    destruct (nth_error h l) as [old|]; [|split; [exact S|left; apply ext_refl]]. destruct (can_become old o'); cbn [snd hs_regs hs_heap]; [|split; [exact S|left; apply ext_refl]].
    split; [exact S|]. right. exists r, o, l, o'. auto.
  - destruct (hcommit h d) as [r d']. split; [exact S|left; apply ext_refl].
  - destruct (hhard n h d) as [r d']. split; [exact S|left; apply ext_refl].
  - unfold new. split; [exact S|left; apply ext_app].
  - split; [exact S|left; apply ext_refl].
  - split; [exact S|left; apply ext_refl].
  - unfold deepcopy. split; [exact S|left; apply ext_app].
  - split; [exact S|left; apply ext_refl].
  - split; [exact S|left; apply ext_refl].
Qed.
Lemma kept_grow ds s0 s s' : kept ds s0 s -> (exists more, hs_regs s' = hs_regs s ++ more) -> ext (hs_heap s) (hs_heap s') -> kept ds s0 s'.
Proof.
  intros H (more & HR) HX r a HI E. destruct (H r a HI E) as (H1 & v & V0 & V). split; [rewrite HR; apply regs_later, H1|]. exists v. split; [exact V0|eapply val_ext; eassumption].
Qed.
(** a statement of careful code keeps them *)
Lemma kept_step ds s0 o s : kept ds s0 s -> (forall r, In r ds -> exists a, nth_error (hs_regs s0) r = Some a) ->
  match o with HMutate r _ => forall a, nth_error (hs_regs s) r = Some a -> ~ shared s a /\ (forall c, default_object ds s c -> ~ reach (hs_heap s) c a) | _ => True end ->
  kept ds s0 (snd (hdo o s)).
Proof.
  intros H HA HM. destruct (step_grows o s) as [HR [HX|(r & p & a & q & -> & ER & HH)]]; [eapply kept_grow; eassumption|].
  intros r1 b HI E. destruct (H r1 b HI E) as (H1 & v & V0 & V). destruct HR as (more & HR). split; [rewrite HR; apply regs_later, H1|]. exists v. split; [exact V0|].
  rewrite HH. rewrite val_mutate; [exact V|]. destruct (HM a ER) as [_ N]. apply N. exists r1. auto.
Qed.
Lemma defaults_sim ds s0 l : (forall r, In r ds -> exists a, nth_error (hs_regs s0) r = Some a) -> forall s, oks s -> kept ds s0 s -> careful_defaults ds l s ->
  let '(tr, s') := drun l s in oks s' /\ vasks (default_value s0) (map fst tr) (abs s) = (map snd tr, abs s').
Proof.
  intros HA. induction l as [|o l IH]; intros s H HK HC; cbn [drun]; [split; [exact H|reflexivity]|]. destruct HC as [HM HC].
  assert (ST : let '(e, s1) := ddo o s in oks s1 /\ kept ds s0 s1 /\ match e with Some (q, r) => vask (default_value s0) q (abs s) = (r, abs s1) | None => abs s1 = abs s end).
  { destruct o as [o|k r]; cbn [ddo].
    - assert (HM' : match o with HMutate r _ => forall a, nth_error (hs_regs s) r = Some a -> ~ shared s a | _ => True end).
      { destruct o; try exact I. intros a Ha. exact (proj1 (HM a Ha)). }
      pose proof (step_sim o s H HM') as SS. assert (KK : kept ds s0 (snd (hdo o s))) by (apply kept_step; [exact HK|exact HA|destruct o; try exact I; exact HM]).
      destruct (hdo o s) as [e s1]. cbn [snd] in KK. destruct SS as [S1 S2]. split; [exact S1|]. split; [exact KK|]. destruct e as [[q x]|]; exact S2.
    - destruct (HA r HM) as (a & EA). destruct (HK r a HM EA) as (ER & v & V0 & V). rewrite ER.
      pose proof H as [Hd Hs]. pose proof (hget_sim k (hs_heap s) (hs_drv s) Hd) as G. pose proof (hget_ext k (hs_heap s) (hs_drv s)) as X.
      destruct (hget k (hs_heap s) (hs_drv s)) as [[[b|e] h'] d']; destruct G as (_ & O & E & VL); cbn [fst snd] in X.
      + destruct (grow s h' d' (hs_rt s) (hs_regs s ++ [if lnone h' b then a else b]) H X O) as [G1 G2]. split; [exact G1|]. split.
        * eapply kept_grow; [exact HK|exists [if lnone h' b then a else b]; reflexivity|exact X].
        * destruct VL as (w & W). cbn [vask vdo abs vs_w w_drv]. rewrite E. rewrite (val_lnone _ _ _ W), (val_vof _ _ _ W).
          f_equal; [|symmetry; exact G2]. f_equal. unfold default_value. rewrite EA. destruct (is_none w); [|rewrite (val_vof _ _ _ W); reflexivity].
          rewrite (val_vof _ _ _ V0), (val_vof _ _ _ (val_ext _ _ _ _ X V)). reflexivity.
      + destruct (grow s h' d' (hs_rt s) (hs_regs s) H X O) as [G1 G2]. split; [exact G1|]. split.
        * eapply kept_grow; [exact HK|exists []; symmetry; apply app_nil_r|exact X].
        * cbn [vask vdo abs vs_w w_drv]. rewrite E. f_equal. symmetry. exact G2. }
  destruct (ddo o s) as [e s1]. cbn [snd] in HC. destruct ST as (S1 & S2 & S3). specialize (IH s1 S1 S2 HC). destruct (drun l s1) as [tr s2]. destruct IH as [I1 I2]. split; [exact I1|].
  destruct e as [[q x]|]; cbn [map fst snd vasks]; [rewrite S3, I2; reflexivity|rewrite <- S3, I2; reflexivity].
Qed.
(** Proved: for code that changes neither stored objects nor the default objects in place, a key nothing is stored under reads as the default that was declared *)
Theorem C111_defaults_partial bypass d rt decl ds l : careful decl (hstart bypass d rt) ->
  (forall r, In r ds -> exists a v, nth_error (hs_regs (snd (hrun decl (hstart bypass d rt)))) r = Some a /\ val (hs_heap (snd (hrun decl (hstart bypass d rt)))) a = Some v) ->
  careful_defaults ds l (snd (hrun decl (hstart bypass d rt))) -> defaults_hold bypass d rt decl l.
Proof.
  intros H0 HD HC. unfold defaults_hold. pose proof (run_sim decl (hstart bypass d rt)) as R.
  assert (O : oks (hstart bypass d rt)) by (repeat split; constructor). specialize (R O H0).
  destruct (hrun decl (hstart bypass d rt)) as [tr0 s0]. cbn [snd] in HD, HC. destruct R as [O0 R0].
  assert (HA : forall r, In r ds -> exists a, nth_error (hs_regs s0) r = Some a) by (intros r HI; destruct (HD r HI) as (a & v & E & _); eauto).
  assert (HK : kept ds s0 s0). { intros r a HI E. split; [exact E|]. destruct (HD r HI) as (a' & v & E' & V). exists v. assert (a' = a) by congruence. subst a'. auto. }
  pose proof (defaults_sim ds s0 l HA s0 O0 HK HC) as S. destruct (drun l s0) as [tr s]. destruct S as [_ S].
  change (abs (hstart bypass d rt)) with (vstart bypass d rt) in R0. rewrite R0.
  change (fun r => match nth_error (hs_regs s0) r with Some a => vof (hs_heap s0) a | None => VNone end) with (default_value s0). rewrite S. split; reflexivity.
Qed.

(** ** REFUTED when a default object is changed in place *)
(** nothing is stored under [k], pending or durable *)
Definition absent (k : pystr) (s : hstate) : Prop :=
  value_from_disk k (hd_disk (hs_drv s)) = Ok VNone /\ lget (hs_heap s) k (hd_writes (hs_drv s)) = None /\ lget (hs_heap s) k (hd_cache (hs_drv s)) = None.
Lemma absent_get k s : absent k s -> exists l d, hget k (hs_heap s) (hs_drv s) = (Ok l, hs_heap s ++ [OAtom VNone], d) /\ l = length (hs_heap s) /\
  hd_disk d = hd_disk (hs_drv s) /\ hd_writes d = hd_writes (hs_drv s) /\ hd_cache d = hd_cache (hs_drv s) /\ hd_bypass d = hd_bypass (hs_drv s).
Proof.
  intros (E & W & C). unfold hget, hfind. rewrite W, C.
  assert (F : from_disk k (hs_heap s) (hs_drv s) = Ok (length (hs_heap s), hs_heap s ++ [OAtom VNone])) by (unfold from_disk; rewrite E; reflexivity).
  rewrite F. destruct (hd_bypass (hs_drv s)) eqn:B; (eexists; eexists; split; [reflexivity|]; split; [reflexivity|]; destruct (lget _ k (hd_reads (hs_drv s))); auto).
Qed.
Lemma lnone_top h : lnone (h ++ [OAtom VNone]) (length h) = true.
Proof. unfold lnone. rewrite nth_error_app2, Nat.sub_diag by lia. reflexivity. Qed.
(** A dict of references none of which is new *)
Definition old_refs (h : heap) (d : dict loc) : Prop := Forall (fun kl => snd kl < length h) d.
Lemma lget_change h h' k d : old_refs h d -> (forall l, l < length h -> lnone h' l = lnone h l) -> lget h' k d = lget h k d.
Proof.
  intros H HL. unfold lget. destruct (dget k d) as [l|] eqn:E; [|reflexivity]. rewrite HL; [reflexivity|]. apply dget_In in E. unfold old_refs in H. rewrite Forall_forall in H. exact (H _ E).
Qed.
(** A list is changed in place to a list, a dict to a dict *)
Definition both_lists_or_dicts {A B} (o : obj A) (q : obj B) : Prop := (exists l l', o = OList l /\ q = OList l') \/ (exists d d', o = ODict d /\ q = ODict d').
(** REFUTED: reading an unset entry and changing what was read in place changes what every other unset entry reads as *)
Theorem C111_in_place_refuted s k1 k2 r a o p q : nth_error (hs_regs s) r = Some a -> nth_error (hs_heap s) a = Some o ->
  absent k1 s -> absent k2 s -> old_refs (hs_heap s) (hd_writes (hs_drv s)) -> old_refs (hs_heap s) (hd_cache (hs_drv s)) ->
  look (hs_regs s ++ [a]) p = Some q -> both_lists_or_dicts o q ->
  let s1 := snd (drun [DGet k1 r; DDo (HMutate (length (hs_regs s)) p)] s) in
  nth_error (hs_heap s1) a = Some q /\
  (forall v, val (hs_heap s1) a = Some v -> fst (ddo (DGet k2 r) s1) = Some (Default k2 r, Ok v)).
Proof.
  intros ER EO A1 A2 OW OC EL EB'. assert (EB : can_become o q = true) by (destruct EB' as [(? & ? & -> & ->)|(? & ? & -> & ->)]; reflexivity). cbn [drun ddo]. rewrite ER. destruct (absent_get _ _ A1) as (l & d & EG & -> & D1 & D2 & D3 & D4). rewrite EG. rewrite lnone_top. cbn [hdo].
  assert (La : a < length (hs_heap s)) by (apply nth_error_Some; congruence).
  assert (Q : nth_error (hs_regs s ++ [a]) (length (hs_regs s)) = Some a) by (rewrite nth_error_app2, Nat.sub_diag by lia; reflexivity).
  rewrite Q. rewrite EL.
  rewrite nth_error_app1 by exact La. rewrite EO, EB. cbn [option_map snd hs_heap].
  set (h1 := upd a q (hs_heap s ++ [OAtom VNone])).
  assert (N1 : nth_error h1 a = Some q) by (apply nth_upd_same; rewrite app_length; cbn; lia).
  assert (HL : forall x, x < length (hs_heap s) -> lnone h1 x = lnone (hs_heap s) x).
  { intros x Hx. unfold lnone. destruct (Nat.eq_dec a x) as [<-|NE].
    - rewrite N1, EO. destruct o, q; try discriminate EB; reflexivity.
    - unfold h1. rewrite nth_upd_other by exact NE. rewrite nth_error_app1 by exact Hx. reflexivity. }
  split; [exact N1|]. intros v V.
  set (s1 := mkHS h1 d (hs_rt s) (hs_snap s) (hs_regs s ++ [a])).
  assert (A2' : absent k2 s1).
  { destruct A2 as (B1 & B2 & B3). unfold absent, s1. cbn [hs_drv hs_heap]. rewrite D1, D2, D3. split; [exact B1|]. split; (rewrite (lget_change (hs_heap s) h1); assumption). }
  destruct (absent_get _ _ A2') as (l & d2 & EG2 & -> & _). cbn [ddo]. unfold s1 in *. cbn [hs_regs hs_heap hs_drv] in *. rewrite regs_later with (a := a) by exact ER. rewrite EG2, lnone_top. cbn [fst].
  do 3 f_equal. apply val_vof. eapply val_ext; [apply ext_app|exact V].
Qed.
(** The declaration h = Hash(default_value=[]); then for "a" and for "b": x = h[k]; x.append(n); h[k] = x *)
Definition ka : pystr := u "con.h:a".
Definition kb : pystr := u "con.h:b".
Definition declares : list hop := [HNew (OList [])].
Definition appends : list dop :=
  [DGet ka 0; DDo (HNew (OAtom (VInt 1))); DDo (HMutate 1 (OList [2])); DDo (HSet ka 1 true);
   DGet kb 0; DDo (HNew (OAtom (VInt 2))); DDo (HMutate 3 (OList [2; 4])); DDo (HSet kb 3 true); DGet ka 0; DDo HCommit].
Theorem C111_refuted : ~ forall bypass d rt decl l, careful decl (hstart bypass d rt) -> defaults_hold bypass d rt decl l.
Proof.
  intros H. specialize (H false [] rt0 declares appends). assert (C : careful declares (hstart false [] rt0)) by (repeat split).
  specialize (H C). vm_compute in H. destruct H as [H _]. discriminate H.
Qed.
(** both entries end up with both elements, durably *)
Example C111_appends_trace :
  let s0 := snd (hrun declares (hstart false [] rt0)) in
  fst (drun appends s0) =
    [(Default ka 0, Ok (VList [])); (Asked (RSet ka (VList [VInt 1]) true), Ok VNone); (Default kb 0, Ok (VList [VInt 1]));
     (Asked (RSet kb (VList [VInt 1; VInt 2]) true), Ok VNone); (Default ka 0, Ok (VList [VInt 1; VInt 2])); (Asked RCommit, Ok VNone)] /\
  fresh_read (hd_disk (hs_drv (snd (drun appends s0)))) ka = Ok (VList [VInt 1; VInt 2]) /\
  fresh_read (hd_disk (hs_drv (snd (drun appends s0)))) kb = Ok (VList [VInt 1; VInt 2]).
Proof. split; [|split]; vm_compute; reflexivity. Qed.
(** Careful code: a changed copy is stored instead; each entry gets its own list *)
Definition copies : list dop :=
  [DGet ka 0; DDo (HNew (OAtom (VInt 1))); DDo (HNew (OList [2])); DDo (HSet ka 3 true);
   DGet kb 0; DDo (HNew (OAtom (VInt 2))); DDo (HNew (OList [5])); DDo (HMutate 6 (OList [5; 5])); DDo (HSet kb 6 true); DGet ka 0].
Lemma below_not_reach n h c l : forallb (fun o => forallb (fun x => x <? n) (parts o)) (firstn n h) = true -> c < n -> n <= l -> ~ reach h c l.
Proof.
  intros H Hc Hl R. induction R as [a|a o c b E HI R IH]; [lia|]. apply IH; [|exact Hl]. rewrite forallb_forall in H.
  assert (HO : In o (firstn n h)). { apply (nth_error_In _ a). rewrite <- E. clear - Hc. revert a h Hc. induction n as [|n IH]; intros a h Hc; [lia|]. destruct h as [|x h]; [destruct a; reflexivity|]. destruct a as [|a]; [reflexivity|]. cbn. apply IH. lia. }
  specialize (H o HO). rewrite forallb_forall in H. specialize (H c HI). apply Nat.ltb_lt in H. exact H.
Qed.
Example C111_careful_example : careful declares (hstart false [] rt0) /\ careful_defaults [0] copies (snd (hrun declares (hstart false [] rt0))) /\
  (exists a v, nth_error (hs_regs (snd (hrun declares (hstart false [] rt0)))) 0 = Some a /\ val (hs_heap (snd (hrun declares (hstart false [] rt0)))) a = Some v) /\
  map snd (fst (drun copies (snd (hrun declares (hstart false [] rt0))))) = [Ok (VList []); Ok VNone; Ok (VList []); Ok VNone; Ok (VList [VInt 1])].
Proof.
  split; [repeat split|]. split; [|split; [exists 0, (VList []); split; reflexivity|vm_compute; reflexivity]].
  unfold copies. cbn [careful_defaults]. repeat (refine (conj _ _); [try exact I; try (left; reflexivity)|]); try exact I.
  intros a Ha. vm_compute in Ha. injection Ha as <-. split.
  - intros [c [Hc HR]]. revert HR. apply (below_not_reach 7); [vm_compute; reflexivity| |lia].
    assert (B : forallb (fun x => x <? 7) (cells (snd (drun (firstn 7 copies) (snd (hrun declares (hstart false [] rt0)))))) = true) by (vm_compute; reflexivity).
    rewrite forallb_forall in B. specialize (B c Hc). apply Nat.ltb_lt in B. exact B.
  - intros c (r & [<-|[]] & Hr) HR. vm_compute in Hr. injection Hr as <-.
    inversion HR as [|? ? ? ? HN HI HR']; subst. vm_compute in HN. injection HN as <-. destruct HI.
Qed.
