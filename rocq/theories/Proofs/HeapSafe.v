(** * What a statement can touch *)
From Coq Require Import Lia.
From Verif Require Import Model.Base Model.State Model.Value Model.Encoder Model.Hdf5 Model.Runtime Model.Driver Model.Heap.
From Verif Require Import Spec.HeapSpec Proofs.BaseFacts Proofs.HeapFacts Proofs.HeapSim.
Local Notation length := List.length (only parsing).

(** ** References stay inside a closed set *)
Definition closed (Q : loc -> Prop) (h : heap) : Prop := forall l o, Q l -> nth_error h l = Some o -> Forall Q (parts o).
Definition qdict (Q : loc -> Prop) (d : dict loc) : Prop := Forall (fun kl => Q (snd kl)) d.
Definition qp (Q : loc -> Prop) (p : option loc * loc) : Prop := match fst p with Some a => Q a | None => True end /\ Q (snd p).
Definition qdd (Q : loc -> Prop) (d : dict (option loc * loc)) : Prop := Forall (fun kl => qp Q (snd kl)) d.
Definition qd (Q : loc -> Prop) (d : hdriver) : Prop :=
  Forall (fun nd => qdd Q (snd nd)) (hd_deltas d) /\ qdict Q (hd_writes d) /\ qdict Q (hd_reads d) /\ qdict Q (hd_txn d) /\ qdict Q (hd_cache d).
Definition within (Q : loc -> Prop) (s : hstate) : Prop := closed Q (hs_heap s) /\ qd Q (hs_drv s) /\ Forall Q (hs_regs s).
(** the heap only grew, and everything new is in Q and points into Q *)
Definition grown (Q : loc -> Prop) (h h' : heap) : Prop :=
  exists e, h' = h ++ e /\ Forall (fun o => Forall Q (parts o)) e.
Definition fresh_ok (Q : loc -> Prop) (h h' : heap) : Prop := forall l, length h <= l < length h' -> Q l.
Lemma grown_refl Q h : grown Q h h. Proof. exists []. split; [symmetry; apply app_nil_r|constructor]. Qed.
Lemma grown_closed Q h h' : closed Q h -> grown Q h h' -> closed Q h'.
Proof.
  intros H (e & -> & He) l o Hl E. destruct (Nat.lt_ge_cases l (length h)) as [L|L].
  - rewrite nth_error_app1 in E by exact L. eapply H; eassumption.
  - rewrite nth_error_app2 in E by exact L. rewrite Forall_forall in He. apply He. eapply nth_error_In, E.
Qed.
Lemma grown_same Q h h' l : grown Q h h' -> l < length h -> nth_error h' l = nth_error h l.
Proof. intros (e & -> & _) H. apply nth_error_app1, H. Qed.
Lemma grown_length Q h h' : grown Q h h' -> length h <= length h'.
Proof. intros (e & -> & _). rewrite app_length. lia. Qed.
(** alloc: new references only *)
Definition range (a b : nat) (l : loc) : Prop := a <= l < b.
Definition allocs (h : heap) (r : loc * heap) : Prop :=
  (exists e, snd r = h ++ e /\ Forall (fun o => Forall (range (length h) (length (snd r))) (parts o)) e) /\
  range (length h) (length (snd r)) (fst r).
Lemma range_weak a b a' b' ls : a' <= a -> b <= b' -> Forall (range a b) ls -> Forall (range a' b') ls.
Proof. intros A B. apply Forall_impl. unfold range. intros; lia. Qed.
Lemma thread_allocs {X} (f : X -> heap -> loc * heap) l :
  Forall (fun x => forall h, allocs h (f x h)) l ->
  forall h, let '(ls, h') := thread f l h in
  (exists e, h' = h ++ e /\ Forall (fun o => Forall (range (length h) (length h')) (parts o)) e) /\ Forall (range (length h) (length h')) ls.
Proof.
  induction 1 as [|x l Hx Hl IH]; intros h; simpl.
  - split; [exists []; split; [symmetry; apply app_nil_r|constructor]|constructor].
  - destruct (Hx h) as [(e1 & E1 & F1) R1]. destruct (f x h) as [a h1]. simpl in *.
    specialize (IH h1). destruct (thread f l h1) as [ls h2]. destruct IH as [(e2 & E2 & F2) R2].
    assert (L1 : length h <= length h1) by (rewrite E1, app_length; lia).
    assert (L2 : length h1 <= length h2) by (rewrite E2, app_length; lia).
    split.
    + exists (e1 ++ e2). split; [rewrite app_assoc; congruence|]. apply Forall_app. split.
      * eapply Forall_impl; [|exact F1]. intros o. apply range_weak; lia.
      * eapply Forall_impl; [|exact F2]. intros o. apply range_weak; lia.
    + constructor; [unfold range in *; lia|]. eapply range_weak; [| |exact R2]; lia.
Qed.
Lemma new_allocs h h1 o : (exists e, h1 = h ++ e /\ Forall (fun o => Forall (range (length h) (length h1)) (parts o)) e) ->
  Forall (range (length h) (length h1)) (parts o) -> allocs h (new o h1).
Proof.
  intros (e & E & F) Ho. unfold new, allocs; simpl. assert (L : length h <= length h1) by (rewrite E, app_length; lia).
  rewrite app_length; simpl. split; [|unfold range; lia]. exists (e ++ [o]). split; [rewrite app_assoc; congruence|].
  apply Forall_app. split; [eapply Forall_impl; [|exact F]; intros q; apply range_weak; lia|].
  constructor; [|constructor]. eapply range_weak; [| |exact Ho]; lia.
Qed.
Lemma alloc_allocs v : forall h, allocs h (alloc v h).
Proof.
  assert (Z : forall h, exists e, h = h ++ e /\ Forall (fun o => Forall (range (length h) (length h)) (parts o)) e).
  { intros h. exists []. split; [symmetry; apply app_nil_r|constructor]. }
  induction v as [ | | | | | | | | | |l IH|l IH|d IH| ] using pyval_nested_ind; intros h;
    try (apply new_allocs; [apply Z|constructor]).
  - pose proof (thread_allocs alloc l IH h) as H. simpl. destruct (thread alloc l h) as [ls h']. destruct H. apply new_allocs; assumption.
  - pose proof (thread_allocs alloc l IH h) as H. simpl. destruct (thread alloc l h) as [ls h']. destruct H. apply new_allocs; assumption.
  - pose proof (thread_allocs (fun kv => alloc (snd kv)) d IH h) as H.
    pose proof (thread_made (fun kv => alloc (snd kv)) snd d) as M. cbn [alloc].
    assert (M' : Forall (fun kv : pykey * pyval => forall h, made (snd kv) h (alloc (snd kv) h)) d) by (apply Forall_forall; intros; apply alloc_made).
    specialize (M M' h).
    destruct (thread (fun kv => alloc (snd kv)) d h) as [ls h']. destruct H, M as (_ & _ & L). apply new_allocs; [assumption|].
    simpl. rewrite map_snd_combine by (rewrite map_length; exact L). assumption.
Qed.
Lemma alloc_grown Q v h : fresh_ok Q h (snd (alloc v h)) -> grown Q h (snd (alloc v h)) /\ Q (fst (alloc v h)).
Proof.
  intros F. destruct (alloc_allocs v h) as [(e & E & A) R]. split; [|apply F, R]. exists e. split; [exact E|].
  eapply Forall_impl; [|exact A]. intros o. apply Forall_impl. intros c. apply F.
Qed.

  Lemma hfind_len k h d : match hfind k h d with Ok (_, h') => length h <= length h' | Err _ => True end.
  Proof.
    assert (D : match from_disk k h d with Ok (_, h') => length h <= length h' | Err _ => True end).
    { unfold from_disk. destruct (value_from_disk k (hd_disk d)) as [v|]; simpl; [|trivial].
      pose proof (ext_length _ _ (alloc_ext v h)) as A. destruct (alloc v h). exact A. }
    unfold hfind. destruct (hd_bypass d); [exact D|]. destruct (lget h k (hd_writes d)); [lia|]. destruct (lget h k (hd_cache d)); [lia|exact D].
  Qed.
  Lemma hget_len k h d : let '(_, h', _) := hget k h d in length h <= length h'.
  Proof. unfold hget. pose proof (hfind_len k h d) as F. destruct (hfind k h d) as [[l h']|e]; [exact F|lia]. Qed.
  Lemma hcoerce_len l h : match hcoerce l h with Ok (_, h') => length h <= length h' | Err _ => True end.
  Proof.
    unfold hcoerce. destruct (nth_error h l) as [[v|ls|ls|dd]|]; try lia. destruct v; try lia.
    - destruct (coerce (VFloat repr)) as [w|]; simpl; [|trivial]. pose proof (ext_length _ _ (alloc_ext w h)) as A. destruct (alloc w h). exact A.
    - destruct (coerce (VDecimal d)) as [w|]; simpl; [|trivial]. pose proof (ext_length _ _ (alloc_ext w h)) as A. destruct (alloc w h). exact A.
  Qed.
Section Step.
  Variable Q : loc -> Prop.
  Lemma qd_lget k h d : qdict Q d -> match lget h k d with Some l => Q l | None => True end.
  Proof.
    intros H. unfold lget. destruct (dget k d) as [l|] eqn:E; [|trivial]. destruct (lnone h l); [trivial|]. exact (Forall_dget _ _ _ _ H E).
  Qed.
  Lemma q_from_disk k h d : match from_disk k h d with Ok (l, h') => fresh_ok Q h h' -> grown Q h h' /\ Q l | Err _ => True end.
  Proof.
    unfold from_disk. destruct (value_from_disk k (hd_disk d)) as [v|]; simpl; [|trivial].
    pose proof (alloc_grown Q v h) as A. destruct (alloc v h). exact A.
  Qed.
  Lemma q_hfind k h d : qd Q d -> match hfind k h d with Ok (l, h') => fresh_ok Q h h' -> grown Q h h' /\ Q l | Err _ => True end.
  Proof.
    intros (_ & W & _ & _ & C). unfold hfind. pose proof (q_from_disk k h d) as D. destruct (hd_bypass d); [exact D|].
    pose proof (qd_lget k h _ W). destruct (lget h k (hd_writes d)); [intros _; split; [apply grown_refl|assumption]|].
    pose proof (qd_lget k h _ C). destruct (lget h k (hd_cache d)); [intros _; split; [apply grown_refl|assumption]|]. exact D.
  Qed.
  Lemma q_hget k h d : qd Q d -> let '(r, h', d') := hget k h d in
    fresh_ok Q h h' -> grown Q h h' /\ qd Q d' /\ match r with Ok l => Q l | Err _ => True end.
  Proof.
    intros H. unfold hget. pose proof (q_hfind k h d H) as F. destruct (hfind k h d) as [[l h']|e].
    - destruct H as (A & B & C & D & E). destruct (lget h' k (hd_reads d)); intros X; destruct (F X) as [G G']; repeat split; try assumption.
      apply Forall_dset; assumption.
    - intros _. split; [apply grown_refl|]. split; [exact H|trivial].
  Qed.
  Lemma q_hcoerce l h : Q l -> match hcoerce l h with Ok (l', h') => fresh_ok Q h h' -> grown Q h h' /\ Q l' | Err _ => True end.
  Proof.
    intros Hl. unfold hcoerce. assert (Z : fresh_ok Q h h -> grown Q h h /\ Q l) by (intros _; split; [apply grown_refl|exact Hl]).
    destruct (nth_error h l) as [[v|ls|ls|dd]|]; try exact Z. destruct v; try exact Z.
    - destruct (coerce (VFloat repr)) as [w|]; simpl; [|trivial]. pose proof (alloc_grown Q w h) as A. destruct (alloc w h). exact A.
    - destruct (coerce (VDecimal d)) as [w|]; simpl; [|trivial]. pose proof (alloc_grown Q w h) as A. destruct (alloc w h). exact A.
  Qed.
  Lemma grown_trans h h1 h2 : grown Q h h1 -> grown Q h1 h2 -> grown Q h h2.
  Proof. intros (e & -> & E) (e' & -> & E'). exists (e ++ e'). split; [symmetry; apply app_assoc|]. apply Forall_app. auto. Qed.
  Lemma q_hset_body k l txn h d : qd Q d -> Q l -> let '(r, h', d') := hset_body k l txn h d in
    fresh_ok Q h h' -> grown Q h h' /\ qd Q d'.
  Proof.
    intros H Hl. unfold hset_body.
    assert (G : let '(r, h', d') := match lget h k (hd_reads d) with None => hget k h d | Some l' => (Ok l', h, d) end in
      (fresh_ok Q h h' -> grown Q h h' /\ qd Q d') /\ length h <= length h').
    { pose proof (q_hget k h d H) as G. pose proof (hget_len k h d) as L. destruct (lget h k (hd_reads d)).
      - split; [intros _; split; [apply grown_refl|exact H]|lia].
      - destruct (hget k h d) as [[r h'] d']. split; [|exact L]. intros F. destruct (G F) as (A & B & _). auto. }
    destruct (match lget h k (hd_reads d) with None => hget k h d | Some l' => (Ok l', h, d) end) as [[r h1] d1].
    destruct G as [G L]. destruct r as [l1|e]; [|exact G].
    pose proof (q_hcoerce l h1 Hl) as C. pose proof (hcoerce_len l h1) as L'. destruct (hcoerce l h1) as [[l2 h2]|e]; [|exact G].
    intros F. destruct G as [G1 G2]; [intros x Hx; apply F; lia|]. destruct C as [C1 C2]; [intros x Hx; apply F; lia|].
    split; [eapply grown_trans; eassumption|]. destruct G2 as (A & B & C & D & E). repeat split; try assumption; simpl.
    - apply Forall_dset; assumption.
    - destruct txn; [apply Forall_dset|]; assumption.
  Qed.
  Lemma q_deltas (reads writes : dict loc) acc : qdict Q reads -> qdict Q writes -> qdd Q acc ->
    qdd Q (fold_left (fun acc kv => dset (fst kv) (dget (fst kv) reads, snd kv) acc) writes acc).
  Proof.
    intros R W. revert acc. induction W as [|[k l] w Hl _ IH]; intros acc H; simpl; [exact H|].
    apply IH. apply (Forall_dset (qp Q)); [exact H|]. split; [|exact Hl]. simpl.
    destruct (dget k reads) as [a|] eqn:E; [|trivial]. exact (Forall_dget _ _ _ _ R E).
  Qed.
  Lemma q_hhard n h d : qd Q d -> qd Q (snd (hhard n h d)).
  Proof.
    intros (A & B & C & D & E). unfold hhard. cbv zeta.
    match goal with |- context [zset n ?dl (hd_deltas d)] => assert (Hds : Forall (fun nd => qdd Q (snd nd)) (zset n dl (hd_deltas d)))
      by (apply Forall_zset; [exact A|apply q_deltas; [exact C|exact B|constructor]]) end.
    match goal with |- context [foreach ?f ?l ?dk] => destruct (foreach f l dk) as [[[]|e] dk'] end; simpl;
      repeat split; simpl; try assumption; try constructor; try (apply Forall_dupdate; assumption). apply Forall_filter. exact Hds.
  Qed.
  Lemma q_roll none (ds : list (Z * dict (option loc * loc))) c : Q none -> Forall (fun nd => qdd Q (snd nd)) ds -> qdict Q c ->
    qdict Q (fold_left (fun c nd => fold_left (fun c kd => dset (fst kd) (match fst (snd kd) with Some l => l | None => none end) c) (snd nd) c) ds c).
  Proof.
    intros N H. revert c. induction H as [|[z dd] ds Hd _ IH]; intros c Hc; simpl; [exact Hc|]. apply IH.
    clear IH. simpl in Hd. revert c Hc. induction Hd as [|[k [o l]] dd [Ho _] _ IH]; intros c Hc; simpl; [exact Hc|]. apply IH.
    apply Forall_dset; [exact Hc|]. destruct o; [exact Ho|exact N].
  Qed.
  Lemma q_look regs o o' : Forall Q regs -> look regs o = Some o' -> Forall Q (parts o').
  Proof.
    intros H. assert (M : forall l ls, mapo (nth_error regs) l = Some ls -> Forall Q ls).
    { intros l ls E. apply Forall_forall. intros x Hx. destruct (mapo_In _ _ _ _ E Hx) as (i & _ & Hi).
      rewrite Forall_forall in H. apply H. eapply nth_error_In, Hi. }
    destruct o as [v|l|l|d]; simpl.
    - intros [= <-]. constructor.
    - destruct (mapo (nth_error regs) l) as [ls|] eqn:E; [|discriminate]. intros [= <-]. simpl. eauto.
    - destruct (mapo (nth_error regs) l) as [ls|] eqn:E; [|discriminate]. intros [= <-]. simpl. eauto.
    - destruct (mapo (nth_error regs) (map snd d)) as [ls|] eqn:E; [|discriminate]. intros [= <-]. simpl.
      rewrite map_snd_combine by (rewrite (mapo_length _ _ _ E), !map_length; reflexivity). eauto.
  Qed.
  Definition body_op (o : hop) : Prop := match o with HBegin | HFail => False | _ => True end.
  Lemma step_within o s : body_op o -> within Q s -> fresh_ok Q (hs_heap s) (hs_heap (snd (hdo o s))) ->
    within Q (snd (hdo o s)) /\ hs_snap (snd (hdo o s)) = hs_snap s /\ length (hs_heap s) <= length (hs_heap (snd (hdo o s))) /\
    forall l, ~ Q l -> l < length (hs_heap s) -> nth_error (hs_heap (snd (hdo o s))) l = nth_error (hs_heap s) l.
  Proof.
    intros Hb H. pose proof H as (Hc & Hd & Hr). destruct s as [h d rt snap regs] eqn:Es. simpl in Hc, Hd, Hr.
    assert (Same : forall rt' e, fresh_ok Q h (hs_heap (snd (e : option (req * result pyval), mkHS h d rt' snap regs))) ->
      within Q (mkHS h d rt' snap regs) /\ snap = snap /\ length h <= length h /\ forall l, ~ Q l -> l < length h -> nth_error h l = nth_error h l).
    { intros rt' e _. split; [split; [exact Hc|split; [exact Hd|exact Hr]]|]. auto. }
    assert (Grow : forall h' d' rt' regs', grown Q h h' -> qd Q d' -> Forall Q regs' ->
      within Q (mkHS h' d' rt' snap regs') /\ snap = snap /\ length h <= length h' /\ forall l, ~ Q l -> l < length h -> nth_error h' l = nth_error h l).
    { intros h' d' rt' regs' G D R. split; [split; [eapply grown_closed; eassumption|split; assumption]|].
      split; [reflexivity|]. split; [eapply grown_length, G|]. intros l _ L. eapply grown_same; eassumption. }
    unfold hdo. destruct o as [k|k r txn|o|r i|r o| |n|n|p| | | | ]; try contradiction Hb.
    - pose proof (q_hget k h d Hd) as G. destruct (hget k h d) as [[r h'] d']. destruct r as [l|e]; simpl; intros F; destruct (G F) as (G1 & G2 & G3).
      + apply Grow; [exact G1|exact G2|]. apply Forall_app. auto.
      + apply Grow; [exact G1|exact G2|exact Hr].
    - destruct (nth_error regs r) as [l|] eqn:R; [|exact (Same rt None)].
      destruct (val h l) as [v|]; [|exact (Same rt None)].
      destruct (encode_kv_len k v) as [[kl vl]|e]; [|exact (Same rt None)].
      destruct (deduct_write kl vl rt) as [[[]|e] rt']; [|exact (Same rt' None)].
      assert (Hl : Q l) by (rewrite Forall_forall in Hr; apply Hr; eapply nth_error_In, R).
      pose proof (q_hset_body k l txn h d Hd Hl) as B. destruct (hset_body k l txn h d) as [[b h'] d']. simpl. intros F.
      destruct (B F) as [B1 B2]. apply Grow; assumption.
    - destruct (look regs o) as [o'|] eqn:L; [|exact (Same rt None)]. simpl. intros F. apply Grow; [|exact Hd|].
      + exists [o']. split; [reflexivity|]. constructor; [|constructor]. eapply q_look; eassumption.
      + apply Forall_app. split; [exact Hr|]. constructor; [|constructor]. apply F. rewrite app_length. simpl. lia.
    - destruct (nth_error regs r) as [l|] eqn:R; [|exact (Same rt None)].
      destruct (nth_error h l) as [o|] eqn:E; [|exact (Same rt None)].
      destruct (nth_error (parts o) i) as [c|] eqn:P; [|exact (Same rt None)]. simpl. intros F. apply Grow; [apply grown_refl|exact Hd|].
      apply Forall_app. split; [exact Hr|]. constructor; [|constructor].
      assert (Hl : Q l) by (rewrite Forall_forall in Hr; apply Hr; eapply nth_error_In, R).
      pose proof (Hc l o Hl E) as Hp. rewrite Forall_forall in Hp. apply Hp. eapply nth_error_In, P.
    - destruct (nth_error regs r) as [l|] eqn:R; [|exact (Same rt None)].
      destruct (look regs o) as [o'|] eqn:L; [|exact (Same rt None)].
      destruct (nth_error h l) as [old|] eqn:E; [|exact (Same rt None)].
      destruct (can_become old o'); [|exact (Same rt None)]. simpl. intros _.
      assert (Hl : Q l) by (rewrite Forall_forall in Hr; apply Hr; eapply nth_error_In, R).
      split; [|split; [reflexivity|split; [rewrite upd_length; lia|]]].
      + split; [|split; [exact Hd|exact Hr]]. intros x q Hx Ex. simpl in Ex. destruct (Nat.eq_dec l x) as [<-|N].
        * rewrite nth_upd_same in Ex by (apply nth_error_Some; congruence). injection Ex as <-. eapply q_look; eassumption.
        * rewrite nth_upd_other in Ex by exact N. eapply Hc; eassumption.
      + intros x Nx _. apply nth_upd_other. intros <-. contradiction.
    - unfold hcommit. destruct Hd as (A & B & C & D & E).
      match goal with |- context [foreach ?f ?l ?dk] => destruct (foreach f l dk) as [[[]|e] dk'] end; simpl; intros _;
        apply Grow; try apply grown_refl; try exact Hr; repeat split; simpl; try assumption; constructor.
    - pose proof (q_hhard n h d Hd) as G. destruct (hhard n h d) as [r d']. simpl. intros _. apply Grow; [apply grown_refl|exact G|exact Hr].
    - simpl. intros F. assert (N : Q (length h)) by (apply F; rewrite app_length; simpl; lia).
      destruct Hd as (A & B & C & D & E). apply Grow; [|destruct n|exact Hr].
      + exists [OAtom VNone]. split; [reflexivity|]. repeat constructor.
      + repeat split; simpl; try assumption; [apply Forall_filter; exact A|]. apply q_roll; [exact N| |exact E].
        apply Forall_downto, Forall_rev, Forall_zsort, A.
      + repeat split; simpl; try assumption; constructor.
    - simpl. intros _. destruct Hd as (A & B & C & D & E). apply Grow; [apply grown_refl| |exact Hr].
      repeat split; simpl; try assumption. apply Forall_filter; exact E.
    - simpl. intros _. apply Grow; [apply grown_refl| |exact Hr]. repeat split; constructor.
    - simpl. intros _. destruct Hd as (A & B & C & D & E). apply Grow; [apply grown_refl| |exact Hr]. repeat split; simpl; try assumption. constructor.
  Qed.
End Step.

(** ** No reference dangles *)
Definition whole (s : hstate) : Prop :=
  within (fun l => l < length (hs_heap s)) s /\ qdict (fun l => l < length (hs_heap s)) (hs_snap s).
Lemma within_imp (P Q : loc -> Prop) s : (forall l, P l -> Q l) -> closed Q (hs_heap s) -> within P s -> within Q s.
Proof.
  intros H C (_ & (A & B & D & E & F) & R). split; [exact C|]. split; [|eapply Forall_impl; [exact H|exact R]].
  assert (I : forall d, qdict P d -> qdict Q d) by (intros d; apply Forall_impl; intros kl; apply H).
  repeat split; auto. eapply Forall_impl; [|exact A]. intros nd. apply Forall_impl. intros kd [X Y].
  split; [destruct (fst (snd kd)); auto|auto].
Qed.
Lemma closed_top h m : length h <= m -> closed (fun l => l < length h) h -> closed (fun l => l < m) h.
Proof.
  intros H C l o Hl E. eapply Forall_impl; [|eapply C; [|exact E]]; [intros; simpl in *; lia|]. apply nth_error_Some. congruence.
Qed.
Lemma hdo_len o s : length (hs_heap s) <= length (hs_heap (snd (hdo o s))).
Proof.
  destruct s as [h d rt snap regs]. unfold hdo. destruct o as [k|k r txn|o|r i|r o| |n|n|p| | | | ].
  - pose proof (hget_len k h d) as L. destruct (hget k h d) as [[[l|e] h'] d']; exact L.
  - destruct (nth_error regs r) as [l|]; [|reflexivity]. destruct (val h l) as [v|]; [|reflexivity].
    destruct (encode_kv_len k v) as [[kl vl]|e]; [|reflexivity]. destruct (deduct_write kl vl rt) as [[[]|e] rt']; [|reflexivity].
    unfold hset_body.
    assert (L : let '(_, h', _) := match lget h k (hd_reads d) with None => hget k h d | Some l' => (Ok l', h, d) end in length h <= length h').
    { destruct (lget h k (hd_reads d)); [reflexivity|]. exact (hget_len k h d). }
    destruct (match lget h k (hd_reads d) with None => hget k h d | Some l' => (Ok l', h, d) end) as [[[l1|e] h1] d1]; [|exact L].
    pose proof (hcoerce_len l h1) as L'. destruct (hcoerce l h1) as [[l2 h2]|e]; simpl; [lia|exact L].
  - destruct (look regs o); simpl; [rewrite app_length; lia|reflexivity].
  - destruct (nth_error regs r) as [l|]; [|reflexivity]. destruct (nth_error h l) as [q|]; [|reflexivity].
    destruct (nth_error (parts q) i); reflexivity.
  - destruct (nth_error regs r) as [l|]; [|reflexivity]. destruct (look regs o) as [o'|]; [|reflexivity].
    destruct (nth_error h l) as [q|]; [|reflexivity]. destruct (can_become q o'); simpl; [rewrite upd_length|]; reflexivity.
  - destruct (hcommit h d); reflexivity.
  - destruct (hhard n h d); reflexivity.
  - simpl. rewrite app_length. lia.
  - reflexivity.
  - reflexivity.
  - simpl. rewrite app_length. lia.
  - reflexivity.
  - reflexivity.
Qed.
Lemma nth_copy h x o : length h <= x -> nth_error (h ++ map (omap (fun l => l + length h)) h) x = Some o ->
  exists q, nth_error h (x - length h) = Some q /\ parts o = map (fun l => l + length h) (parts q).
Proof.
  intros H E. rewrite nth_error_app2 in E by exact H. rewrite nth_error_map in E. unfold heap, loc in *.
  destruct (nth_error h (x - length h)) as [q|]; [|discriminate]. injection E as <-. exists q. split; [reflexivity|].
  destruct q; simpl; try reflexivity. rewrite !map_map. reflexivity.
Qed.
Lemma step_whole o s : whole s -> whole (snd (hdo o s)).
Proof.
  intros [W S]. pose proof (hdo_len o s) as L.
  assert (B : body_op o -> whole (snd (hdo o s))).
  { intros Hb. set (m := length (hs_heap (snd (hdo o s)))) in *.
    destruct (step_within (fun l => l < m) o s Hb) as (W' & E & _).
    - eapply within_imp; [|apply closed_top; [exact L|apply W]|exact W]. simpl. intros; lia.
    - intros l Hl. unfold m. lia.
    - split; [exact W'|]. rewrite E. eapply Forall_impl; [|exact S]. simpl. fold m. intros; lia. }
  destruct o; try exact (B I); clear B.
  - destruct s as [h d rt snap regs]. simpl in *. destruct W as (C & D & R). simpl in *.
    set (h' := h ++ map (omap (fun l => l + length h)) h) in *.
    assert (Len : length h' = length h + length h) by (unfold h'; rewrite app_length, map_length; reflexivity).
    assert (X : within (fun l => l < length h') (mkHS h' d rt snap regs)).
    { eapply within_imp with (P := fun l => l < length h); [intros; lia| |split; [|split; assumption]].
      - intros l o Hl E. simpl in E. unfold h' in E. destruct (Nat.lt_ge_cases l (length h)) as [Q|Q].
        + rewrite nth_error_app1 in E by exact Q. eapply Forall_impl; [|exact (C l o Q E)]. simpl. intros; lia.
        + apply nth_copy in E as (q & Eq & P); [|exact Q].
          assert (Hq : Forall (fun c => c < length h) (parts q)) by (eapply C; [|exact Eq]; cbv beta; unfold loc in *; lia).
          unfold loc in *. rewrite P. apply Forall_map. eapply Forall_impl; [|exact Hq]. simpl. intros; lia.
      - simpl. intros l o Hl E. unfold h' in E. rewrite nth_error_app1 in E by exact Hl. exact (C l o Hl E). }
    destruct X as (X1 & (A1 & A2 & A3 & A4 & A5) & X3). split; [split; [exact X1|split; [|exact X3]]|].
    + repeat split; simpl; try assumption. constructor.
    + simpl. destruct D as (_ & D2 & _). clear -D2 Len. induction D2 as [|[k l] w Hl _ IH]; simpl; constructor; [simpl in *; lia|exact IH].
  - destruct s as [h d rt snap regs]. simpl in *. destruct W as (C & (A1 & A2 & A3 & A4 & A5) & R). split; [|constructor].
    split; [exact C|split; [|exact R]]. repeat split; simpl; try assumption. constructor.
Qed.
Lemma run_whole l s : whole s -> whole (snd (hrun l s)).
Proof.
  revert s. induction l as [|o l IH]; intros s H; simpl; [exact H|].
  pose proof (step_whole o s H) as H1. destruct (hdo o s) as [e s1]. specialize (IH s1 H1). destruct (hrun l s1). exact IH.
Qed.
Lemma start_whole bypass d rt : whole (hstart bypass d rt).
Proof. repeat split; try constructor. intros l o Hl. simpl in *. lia. Qed.

(** ** The copy of pending_writes is out of reach *)
Lemma run_away (Q : loc -> Prop) l s : Forall body_op l -> within Q s -> (forall x, length (hs_heap s) <= x -> Q x) ->
  hs_snap (snd (hrun l s)) = hs_snap s /\ length (hs_heap s) <= length (hs_heap (snd (hrun l s))) /\
  forall x, ~ Q x -> nth_error (hs_heap (snd (hrun l s))) x = nth_error (hs_heap s) x.
Proof.
  revert s. induction l as [|o l IH]; intros s Hb W F; simpl; [auto|].
  inversion_clear Hb. destruct (step_within Q o s) as (W1 & S1 & L1 & N1); [assumption|exact W|intros x Hx; apply F; lia|].
  destruct (hdo o s) as [e s1]. simpl in *. destruct (IH s1) as (S2 & L2 & N2); [assumption|exact W1|intros x Hx; apply F; lia|].
  destruct (hrun l s1) as [tr s2]. simpl in *. repeat split; [congruence|lia|]. intros x Hx. rewrite N2 by exact Hx. apply N1; [exact Hx|].
  destruct (Nat.lt_ge_cases x (length (hs_heap s))) as [X|X]; [exact X|]. contradiction (Hx (F x X)).
Qed.
Lemma hrun_app l l' s : snd (hrun (l ++ l') s) = snd (hrun l' (snd (hrun l s))).
Proof.
  revert s. induction l as [|o l IH]; intros s; simpl; [reflexivity|]. destruct (hdo o s) as [e s1]. specialize (IH s1).
  destruct (hrun (l ++ l') s1), (hrun l s1). exact IH.
Qed.
(** the same objects in a region give the same values *)
Lemma deref_region (P : loc -> Prop) h h' n l v : (forall x, P x -> nth_error h' x = nth_error h x) -> closed P h ->
  P l -> deref n h l = Some v -> deref n h' l = Some v.
Proof.
  intros E C. revert l v. induction n as [|n IH]; intros l v Hl; simpl; [discriminate|]. rewrite (E l Hl).
  destruct (nth_error h l) as [o|] eqn:N; [|discriminate]. pose proof (C l o Hl N) as Hp. rewrite Forall_forall in Hp.
  assert (M : forall ls ys, (forall x, In x ls -> P x) -> mapo (deref n h) ls = Some ys -> mapo (deref n h') ls = Some ys).
  { induction ls as [|x ls IHl]; simpl; intros ys Hls; [auto|]. destruct (deref n h x) as [y|] eqn:D; [|discriminate].
    rewrite (IH x y (Hls x (or_introl eq_refl)) D). destruct (mapo (deref n h) ls) as [zs|] eqn:Z; [|discriminate].
    rewrite (IHl zs); auto. }
  destruct o as [w|ls|ls|d]; simpl in Hp; [auto|..];
    match goal with |- context [mapo (deref n h) ?l] => destruct (mapo (deref n h) l) as [ys|] eqn:Z; [|discriminate]; rewrite (M _ _ Hp Z); auto end.
Qed.
Lemma fail_restores body s : whole s -> Forall body_op body ->
  let s' := snd (hrun (HBegin :: body ++ [HFail]) s) in
  map fst (hd_writes (hs_drv s')) = map fst (hd_writes (hs_drv s)) /\
  forall k v, dget k (pending s) = Some (Some v) -> dget k (pending s') = Some (Some v).
Proof.
  intros [W S] Hb. destruct s as [h d rt snap regs]. set (n := length h).
  set (h1 := h ++ map (omap (fun l => l + length h)) h).
  set (sn := map (fun kl => (fst kl, snd kl + length h)) (hd_writes d)).
  set (s1 := mkHS h1 (clear_txn d) rt sn regs).
  set (Q := fun x => ~ (n <= x < n + n)).
  assert (Len : length h1 = n + n) by (unfold h1; rewrite app_length, map_length; reflexivity).
  destruct W as (C & (A1 & A2 & A3 & A4 & A5) & R). simpl in C, A1, A2, A3, A4, A5, R. fold n in C, A1, A2, A3, A4, A5, R.
  assert (Hq : forall x, x < n -> Q x) by (unfold Q; intros; lia).
  assert (Qd : forall dd, qdict (fun l => l < n) dd -> qdict Q dd) by (intros dd; apply Forall_impl; intros kl; apply Hq).
  destruct (run_away Q body s1 Hb) as (S2 & L2 & N2).
  - split; [|split].
    + intros x o Hx E. simpl in E. unfold h1 in E. destruct (Nat.lt_ge_cases x n) as [X|X].
      * rewrite nth_error_app1 in E by exact X. eapply Forall_impl; [|exact (C x o X E)]. exact Hq.
      * assert (x < length h1) by (apply nth_error_Some; unfold h1; congruence). unfold Q in Hx. lia.
    + repeat split; simpl; auto; [|constructor]. eapply Forall_impl; [|exact A1]. intros nd. apply Forall_impl.
      intros kd [X Y]. split; [destruct (fst (snd kd)); auto|auto].
    + simpl. eapply Forall_impl; [exact Hq|exact R].
  - simpl. intros x Hx. unfold Q. lia.
  - cbv zeta. change (hrun (HBegin :: body ++ [HFail]) (mkHS h d rt snap regs)) with
      (let '(tr, s2) := hrun (body ++ [HFail]) s1 in ((RBegin, Ok VNone) :: tr, s2)).
    pose proof (hrun_app body [HFail] s1) as HA. destruct (hrun (body ++ [HFail]) s1) as [tr s3]. simpl in HA. subst s3.
    destruct (snd (hrun body s1)) as [h2 d2 rt2 sn2 regs2]. simpl in S2, L2, N2. subst sn2. unfold pending. simpl.
    split; [unfold sn; rewrite map_map; reflexivity|]. intros k v.
    change (map (fun kl => (fst kl, val h (snd kl))) (hd_writes d)) with (dmap (val h) (hd_writes d)).
    change (map (fun kl => (fst kl, val h2 (snd kl))) sn) with (dmap (val h2) (dmap (fun l => l + n) (hd_writes d))).
    rewrite !dget_dmap. destruct (dget k (hd_writes d)) as [l|] eqn:E; [|discriminate]. simpl. intros [= V].
    transitivity (Some (val h2 (l + n))); [unfold loc in *; rewrite E; reflexivity|f_equal].
    pose proof (Forall_dget _ _ _ _ A2 E) as Hl. simpl in Hl.
    pose proof (val_copy h l v V) as V1. fold h1 in V1. unfold val in V1.
    apply (deref_region (fun x => n <= x < n + n) h1 h2) in V1.
    + unfold val. eapply deref_mono; [|apply ext_refl|exact V1]. exact L2.
    + intros x Hx. apply N2. unfold Q. lia.
    + intros x o Hx Ex. apply nth_copy in Ex as (q & Eq & P); [|change (length h) with n; lia].
      assert (Hq' : Forall (fun c => c < n) (parts q)) by (eapply C; [|exact Eq]; cbv beta; fold n; unfold loc in *; lia).
      unfold loc in *. rewrite P. apply Forall_map. eapply Forall_impl; [|exact Hq']. simpl. fold n. intros; lia.
    + fold n. lia.
Qed.
