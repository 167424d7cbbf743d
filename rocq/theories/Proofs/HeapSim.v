(** * The driver over references and the driver over values *)
From Coq Require Import Lia.
From Verif Require Import Model.Base Model.State Model.Value Model.Encoder Model.Hdf5 Model.Runtime Model.Driver Model.Heap.
From Verif Require Import Spec.HeapSpec Proofs.BaseFacts Proofs.HeapFacts.
Local Notation length := List.length (only parsing).

(** ** Dictionaries *)
Definition dmap {A B} (f : A -> B) (d : dict A) : dict B := map (fun kv => (fst kv, f (snd kv))) d.
Lemma dget_dmap {A B} (f : A -> B) k d : dget k (dmap f d) = option_map f (dget k d).
Proof. induction d as [|[j a] d IH]; simpl; [reflexivity|]. destruct (str_eqb k j); [reflexivity|exact IH]. Qed.
Lemma dset_dmap {A B} (f : A -> B) k a d : dmap f (dset k a d) = dset k (f a) (dmap f d).
Proof. induction d as [|[j b] d IH]; simpl; [reflexivity|]. destruct (str_eqb k j); simpl; [reflexivity|]. f_equal. exact IH. Qed.
Lemma fold_dmap {A B C} (f : A -> B) (g : C -> B) (h : C -> A) (l : list (pystr * C)) (acc : dict A) :
  (forall c, g c = f (h c)) ->
  dmap f (fold_left (fun acc kv => dset (fst kv) (h (snd kv)) acc) l acc) =
  fold_left (fun acc kv => dset (fst kv) (g (snd kv)) acc) l (dmap f acc).
Proof.
  intros H. revert acc. induction l as [|[k c] l IH]; intros acc; simpl; [reflexivity|]. rewrite IH, dset_dmap, H. reflexivity.
Qed.
Lemma dupdate_dmap {A B} (f : A -> B) d e : dmap f (dupdate d e) = dupdate (dmap f d) (dmap f e).
Proof.
  unfold dupdate. revert d. induction e as [|[k a] e IH]; intros d; simpl; [reflexivity|]. rewrite IH, dset_dmap. reflexivity.
Qed.
Lemma filter_dmap {A B} (f : A -> B) p (d : dict A) :
  dmap f (filter (fun kv => p (fst kv)) d) = filter (fun kv => p (fst kv)) (dmap f d).
Proof. induction d as [|[k a] d IH]; simpl; [reflexivity|]. destruct (p k); simpl; rewrite IH; reflexivity. Qed.
Lemma dmap_ext {A B} (f g : A -> B) d : Forall (fun kv => f (snd kv) = g (snd kv)) d -> dmap f d = dmap g d.
Proof. induction 1 as [|[k a] d H _ IH]; simpl in *; [reflexivity|]. rewrite H, IH. reflexivity. Qed.
Lemma Forall_dset {A} (P : A -> Prop) k a d :
  Forall (fun kv => P (snd kv)) d -> P a -> Forall (fun kv => P (snd kv)) (dset k a d).
Proof.
  intros H Ha. induction H as [|[j b] d Hb H IH]; simpl; [repeat constructor; exact Ha|].
  destruct (str_eqb k j); constructor; simpl in *; auto.
Qed.
Lemma Forall_dget {A} (P : A -> Prop) k a d : Forall (fun kv => P (snd kv)) d -> dget k d = Some a -> P a.
Proof. intros H E. apply dget_In in E. rewrite Forall_forall in H. exact (H _ E). Qed.
Lemma Forall_dupdate {A} (P : A -> Prop) d e :
  Forall (fun kv => P (snd kv)) d -> Forall (fun kv => P (snd kv)) e -> Forall (fun kv => P (snd kv)) (dupdate d e).
Proof.
  unfold dupdate. intros H He. revert d H. induction He as [|[k a] e Ha _ IH]; intros d H; simpl; [exact H|].
  apply IH, Forall_dset; assumption.
Qed.
Lemma Forall_filter {A} (P : A -> Prop) p l : Forall P l -> Forall P (filter p l).
Proof. induction 1 as [|x l H _ IH]; simpl; [constructor|]. destruct (p x); [constructor|]; assumption. Qed.
(** lists of timed entries *)
Definition zmap {A B} (f : A -> B) (l : list (Z * A)) : list (Z * B) := map (fun x => (fst x, f (snd x))) l.
Lemma zset_zmap {A B} (f : A -> B) n a l : zmap f (zset n a l) = zset n (f a) (zmap f l).
Proof. induction l as [|[j b] l IH]; simpl; [reflexivity|]. destruct (Z.eqb n j); simpl; [reflexivity|]. f_equal. exact IH. Qed.
Lemma zinsert_zmap {A B} (f : A -> B) x l : zmap f (zinsert x l) = zinsert (fst x, f (snd x)) (zmap f l).
Proof. induction l as [|y l IH]; simpl; [reflexivity|]. destruct (Z.ltb (fst y) (fst x)); simpl; [|reflexivity]. f_equal. exact IH. Qed.
Lemma zsort_zmap {A B} (f : A -> B) l : zmap f (zsort l) = zsort (zmap f l).
Proof. induction l as [|x l IH]; simpl; [reflexivity|]. unfold zsort in *. rewrite zinsert_zmap, IH. reflexivity. Qed.
Lemma upto_zmap {A B} (f : A -> B) n l : zmap f (upto n l) = upto n (zmap f l).
Proof. induction l as [|x l IH]; simpl; [reflexivity|]. destruct (Z.eqb (fst x) n); simpl; [reflexivity|]. f_equal. exact IH. Qed.
Lemma downto_zmap {A B} (f : A -> B) n l : zmap f (downto n l) = downto n (zmap f l).
Proof. induction l as [|x l IH]; simpl; [reflexivity|]. destruct (Z.ltb (fst x) n); simpl; [reflexivity|]. f_equal. exact IH. Qed.
Lemma rev_zmap {A B} (f : A -> B) l : zmap f (rev l) = rev (zmap f l). Proof. apply map_rev. Qed.
Lemma filter_zmap {A B} (f : A -> B) p (l : list (Z * A)) :
  zmap f (filter (fun x => p (fst x)) l) = filter (fun x => p (fst x)) (zmap f l).
Proof. induction l as [|[k a] l IH]; simpl; [reflexivity|]. destruct (p k); simpl; rewrite IH; reflexivity. Qed.
Lemma existsb_zmap {A B} (f : A -> B) p (l : list (Z * A)) : existsb (fun y => p (fst y)) (zmap f l) = existsb (fun y => p (fst y)) l.
Proof. induction l as [|[k a] l IH]; simpl; [reflexivity|]. rewrite IH. reflexivity. Qed.
Lemma Forall_zset {A} (P : A -> Prop) n a l :
  Forall (fun x => P (snd x)) l -> P a -> Forall (fun x => P (snd x)) (zset n a l).
Proof.
  intros H Ha. induction H as [|[j b] l Hb H IH]; simpl; [repeat constructor; exact Ha|].
  destruct (Z.eqb n j); constructor; simpl in *; auto.
Qed.
Lemma Forall_zinsert {A} (P : Z * A -> Prop) x l : P x -> Forall P l -> Forall P (zinsert x l).
Proof. intros Hx. induction 1 as [|y l Hy H IH]; simpl; [auto|]. destruct (Z.ltb (fst y) (fst x)); auto. Qed.
Lemma Forall_zsort {A} (P : Z * A -> Prop) l : Forall P l -> Forall P (zsort l).
Proof. induction 1 as [|y l Hy H IH]; simpl; [constructor|]. apply Forall_zinsert; assumption. Qed.
Lemma Forall_upto {A} (P : Z * A -> Prop) n l : Forall P l -> Forall P (upto n l).
Proof. induction 1 as [|y l Hy H IH]; simpl; [constructor|]. destruct (Z.eqb (fst y) n); auto. Qed.
Lemma Forall_downto {A} (P : Z * A -> Prop) n l : Forall P l -> Forall P (downto n l).
Proof. induction 1 as [|y l Hy H IH]; simpl; [constructor|]. destruct (Z.ltb (fst y) n); auto. Qed.

(** ** The values a driver over references holds *)
Definition okl (h : heap) (l : loc) : Prop := exists v, val h l = Some v.
Definition okp (h : heap) (p : option loc * loc) : Prop := match fst p with Some a => okl h a | None => True end /\ okl h (snd p).
Definition okdict (h : heap) (d : dict loc) : Prop := Forall (fun kl => okl h (snd kl)) d.
Definition okdd (h : heap) (d : dict (option loc * loc)) : Prop := Forall (fun kl => okp h (snd kl)) d.
Definition okd (h : heap) (d : hdriver) : Prop :=
  Forall (fun nd => okdd h (snd nd)) (hd_deltas d) /\ okdict h (hd_writes d) /\ okdict h (hd_reads d) /\
  okdict h (hd_txn d) /\ okdict h (hd_cache d).
Definition vofp (h : heap) (p : option loc * loc) : option pyval * pyval := (option_map (vof h) (fst p), vof h (snd p)).
Definition absd (h : heap) (d : hdriver) : driver :=
  mkDv (zmap (dmap (vofp h)) (hd_deltas d)) (dmap (vof h) (hd_writes d)) (dmap (vof h) (hd_reads d)) (dmap (vof h) (hd_txn d))
    [] (dmap (vof h) (hd_cache d)) (hd_bypass d) (hd_disk d).
Lemma okl_ext h h' l : ext h h' -> okl h l -> okl h' l.
Proof. intros H [v E]. exists v. eapply val_ext; eassumption. Qed.
Lemma okp_ext h h' p : ext h h' -> okp h p -> okp h' p.
Proof. intros H [A B]. split; [destruct (fst p); [|trivial]|]; eapply okl_ext; eassumption. Qed.
Lemma okdict_ext h h' d : ext h h' -> okdict h d -> okdict h' d.
Proof. intros H. apply Forall_impl. intros kl. apply okl_ext, H. Qed.
Lemma okd_ext h h' d : ext h h' -> okd h d -> okd h' d.
Proof.
  intros H (A & B & C & D & E). repeat split; try (eapply okdict_ext; eassumption).
  eapply Forall_impl; [|exact A]. intros nd. apply Forall_impl. intros kd. apply okp_ext, H.
Qed.
Lemma vof_okl h h' l : ext h h' -> okl h l -> vof h' l = vof h l.
Proof. intros H [v E]. eapply vof_ext; eassumption. Qed.
Lemma vofp_okp h h' p : ext h h' -> okp h p -> vofp h' p = vofp h p.
Proof.
  intros H [A B]. unfold vofp. rewrite (vof_okl h h' (snd p) H B). destruct (fst p) as [a|]; simpl; [|reflexivity].
  rewrite (vof_okl h h' a H A). reflexivity.
Qed.
Lemma dmap_vof_ext h h' d : ext h h' -> okdict h d -> dmap (vof h') d = dmap (vof h) d.
Proof. intros H Hd. apply dmap_ext. eapply Forall_impl; [|exact Hd]. intros kl. apply vof_okl, H. Qed.
Lemma absd_ext h h' d : ext h h' -> okd h d -> absd h' d = absd h d.
Proof.
  intros H (A & B & C & D & E). unfold absd. rewrite !(dmap_vof_ext h h') by assumption. f_equal.
  apply map_ext_in. intros nd Hn. f_equal. apply dmap_ext. rewrite Forall_forall in A.
  eapply Forall_impl; [|exact (A _ Hn)]. intros kd. apply vofp_okp, H.
Qed.
Lemma lget_pget h k d : okdict h d ->
  match lget h k d with
  | Some l => okl h l /\ pget k (dmap (vof h) d) = vof h l /\ is_none (vof h l) = false
  | None => pget k (dmap (vof h) d) = VNone
  end.
Proof.
  intros H. unfold lget, pget. rewrite dget_dmap. destruct (dget k d) as [l|] eqn:E; simpl; [|reflexivity].
  pose proof (Forall_dget _ _ _ _ H E) as [v Hv]. rewrite (val_lnone _ _ _ Hv), (val_vof _ _ _ Hv).
  destruct (is_none v) eqn:N; [destruct v; try discriminate; reflexivity|].
  rewrite (val_vof _ _ _ Hv). split; [exists v; exact Hv|split; [reflexivity|exact N]].
Qed.
Lemma from_disk_sim k h d : match from_disk k h d with
  | Ok (l, h') => ext h h' /\ okl h' l /\ value_from_disk k (hd_disk d) = Ok (vof h' l)
  | Err e => value_from_disk k (hd_disk d) = Err e
  end.
Proof.
  unfold from_disk. destruct (value_from_disk k (hd_disk d)) as [v|e]; simpl; [|reflexivity].
  pose proof (alloc_ext v h) as X. pose proof (alloc_val v h) as V. destruct (alloc v h) as [l h']. simpl in *.
  split; [exact X|]. split; [exists v; exact V|]. rewrite (val_vof _ _ _ V). reflexivity.
Qed.
Lemma hfind_sim k h d : okd h d ->
  match hfind k h d with
  | Ok (l, h') => ext h h' /\ okl h' l /\ find k (absd h d) = Ok (vof h' l)
  | Err e => find k (absd h d) = Err e
  end.
Proof.
  intros (_ & W & _ & _ & C). unfold hfind, find, absd; cbn -[from_disk value_from_disk lget pget].
  pose proof (from_disk_sim k h d) as D. destruct (hd_bypass d); [exact D|].
  pose proof (lget_pget h k _ W) as HW. destruct (lget h k (hd_writes d)) as [l|].
  - destruct HW as (O & P & N). rewrite P, N. simpl. split; [apply ext_refl|]. split; [exact O|reflexivity].
  - rewrite HW. simpl. pose proof (lget_pget h k _ C) as HC. destruct (lget h k (hd_cache d)) as [l|].
    + destruct HC as (O & P & N). rewrite P, N. simpl. split; [apply ext_refl|]. split; [exact O|reflexivity].
    + rewrite HC. simpl. exact D.
Qed.
Lemma hget_sim k h d : okd h d ->
  let '(r, h', d') := hget k h d in
  ext h h' /\ okd h' d' /\ get k (absd h d) = (match r with Ok l => Ok (vof h' l) | Err e => Err e end, absd h' d') /\
  match r with Ok l => okl h' l | Err _ => True end.
Proof.
  intros H. unfold hget, get. pose proof (hfind_sim k h d H) as F. destruct (hfind k h d) as [[l h']|e].
  - destruct F as (X & O & E). rewrite E. pose proof (okd_ext _ _ _ X H) as H'.
    rewrite <- (absd_ext _ _ _ X H). split; [exact X|].
    pose proof H' as (A & B & C & D & F). pose proof (lget_pget h' k _ C) as L. change (dv_reads (absd h' d)) with (dmap (vof h') (hd_reads d)).
    destruct (lget h' k (hd_reads d)) as [l0|].
    + destruct L as (_ & -> & ->). auto.
    + rewrite L. simpl. repeat split; try assumption; [apply Forall_dset; assumption|].
      unfold absd, set_reads; simpl. rewrite dset_dmap. reflexivity.
  - rewrite F. split; [apply ext_refl|]. auto.
Qed.
Lemma coerce_other v : (forall r, v <> VFloat r) -> (forall x, v <> VDecimal x) -> coerce v = Ok v.
Proof. destruct v; simpl; try reflexivity; [intros H; contradiction (H repr)|intros _ H; contradiction (H d); reflexivity]; reflexivity. Qed.
Lemma hcoerce_sim l h v : val h l = Some v ->
  match hcoerce l h with
  | Ok (l', h') => ext h h' /\ okl h' l' /\ coerce v = Ok (vof h' l')
  | Err e => coerce v = Err e
  end.
Proof.
  intros V. unfold hcoerce.
  assert (S : forall w, ext h (snd (alloc w h)) /\ okl (snd (alloc w h)) (fst (alloc w h)) /\
                        Ok w = Ok (vof (snd (alloc w h)) (fst (alloc w h)))).
  { intros w. split; [apply alloc_ext|]. pose proof (alloc_val w h) as V'. split; [exists w; exact V'|].
    rewrite (val_vof _ _ _ V'). reflexivity. }
  assert (Z : (forall r, v <> VFloat r) -> (forall x, v <> VDecimal x) -> ext h h /\ okl h l /\ coerce v = Ok (vof h l)).
  { intros A B. split; [apply ext_refl|]. split; [exists v; exact V|]. rewrite (coerce_other v A B), (val_vof _ _ _ V). reflexivity. }
  pose proof V as V0. unfold val in V0. destruct (length h); simpl in V0; [discriminate|].
  destruct (nth_error h l) as [[w|ls|ls|dd]|] eqn:E; try discriminate.
  2-4: destruct (mapo _ _); try discriminate; injection V0 as <-; apply Z; congruence.
  injection V0 as ->. destruct v; try (apply Z; congruence).
  - destruct (coerce (VFloat repr)) as [w|e]; simpl; [|reflexivity]. specialize (S w). destruct (alloc w h). exact S.
  - destruct (coerce (VDecimal d)) as [w|e]; simpl; [|reflexivity]. specialize (S w). destruct (alloc w h). exact S.
Qed.
Lemma hset_body_sim k l txn h d v : okd h d -> val h l = Some v ->
  let '(r, h', d') := hset_body k l txn h d in
  ext h h' /\ okd h' d' /\ set_body k v txn (absd h d) = (r, absd h' d').
Proof.
  intros H V. unfold hset_body, set_body. unfold bind at 1, gets.
  pose proof H as (_ & _ & R & _ & _). pose proof (lget_pget h k _ R) as L.
  change (dv_reads (absd h d)) with (dmap (vof h) (hd_reads d)).
  assert (Tail : forall h1 d1, ext h h1 -> okd h1 d1 ->
    let '(r, h', d') := match hcoerce l h1 with
      | Ok (l, h) => (Ok tt, h, mkHD (hd_deltas d1) (dset k l (hd_writes d1)) (hd_reads d1)
                       (if txn then dset k l (hd_txn d1) else hd_txn d1) (hd_cache d1) (hd_bypass d1) (hd_disk d1))
      | Err e => (Err e, h1, d1) end in
    ext h h' /\ okd h' d' /\
    (let! value := lift (coerce v) in
     modify (fun v => set_writes (dset k value (dv_writes v)) v);;
     (if txn then modify (fun v => set_txn (dset k value (dv_txn v)) v) else ret tt)) (absd h1 d1) = (r, absd h' d')).
  { intros h1 d1 X H1. pose proof (hcoerce_sim l h1 v (val_ext _ _ _ _ X V)) as C.
    destruct (hcoerce l h1) as [[l' h']|e].
    - destruct C as (X' & O & E). split; [eapply ext_trans; eassumption|].
      pose proof (okd_ext _ _ _ X' H1) as (A' & B' & C' & D' & E').
      split.
      + repeat split; try assumption; [apply Forall_dset; assumption|]. destruct txn; [apply Forall_dset|]; assumption.
      + unfold bind, lift. rewrite E. unfold modify. rewrite <- (absd_ext _ _ _ X' H1). unfold absd; simpl.
        destruct txn; unfold set_txn, set_writes, ret; simpl; rewrite ?dset_dmap; reflexivity.
    - split; [exact X|]. split; [exact H1|]. unfold bind, lift. rewrite C. reflexivity. }
  destruct (lget h k (hd_reads d)) as [l0|].
  - destruct L as (_ & -> & ->). apply (Tail h d); [apply ext_refl|exact H].
  - rewrite L. simpl is_none. cbv iota. unfold bind at 1 2. pose proof (hget_sim k h d H) as G.
    destruct (hget k h d) as [[r h1] d1]. destruct G as (X & H1 & E & _). rewrite E.
    destruct r as [l1|e]; [apply (Tail h1 d1 X H1)|]. split; [exact X|]. split; [exact H1|reflexivity].
Qed.
(** ** Writing out *)
Lemma foreach_val {S} h (f : pystr * pyval -> st disk unit) d dk : S = disk -> okdict h d ->
  foreach (with_val h f) d dk = foreach f (dmap (vof h) d) dk.
Proof.
  intros _ H. revert dk. induction H as [|[k l] d [v V] _ IH]; intros dk; simpl; [reflexivity|].
  unfold bind. unfold with_val at 1. simpl in V. simpl. rewrite V, (val_vof _ _ _ V).
  destruct (f (k, v) dk) as [[[]|e] dk']; [apply IH|reflexivity].
Qed.
Lemma hcommit_sim h d : okd h d ->
  let '(r, d') := hcommit h d in okd h d' /\ commit (absd h d) = (r, absd h d').
Proof.
  intros H. pose proof H as (A & B & C & D & E). unfold hcommit, commit, bind, gets, on_disk, commit_all.
  rewrite (foreach_val (S := disk) h commit_one) by (reflexivity || exact B). simpl.
  destruct (foreach commit_one (dmap (vof h) (hd_writes d)) (hd_disk d)) as [[[]|e] dk].
  - split; [repeat split; try assumption; constructor|reflexivity].
  - split; [repeat split; assumption|reflexivity].
Qed.
Lemma happly_inner nanos h (d : dict (option loc * loc)) dk : okdd h d ->
  foreach (fun kd => with_val h (happly_one nanos) (fst kd, snd (snd kd))) d dk = foreach (apply_one nanos) (dmap (vofp h) d) dk.
Proof.
  intros H. revert dk. induction H as [|[k [o l]] d [_ [v V]] _ IH]; intros dk; simpl; [reflexivity|].
  unfold bind. unfold with_val at 1. simpl in V. simpl. rewrite V. unfold happly_one at 1, apply_one at 1. simpl. rewrite (val_vof _ _ _ V).
  destruct (parse_key k) as [fn g]. destruct (set_value_to_disk fn g v (Some nanos) dk) as [[[]|e] dk']; [apply IH|reflexivity].
Qed.
Lemma happly_outer nanos h (l : list (Z * dict (option loc * loc))) dk : Forall (fun nd => okdd h (snd nd)) l ->
  foreach (fun nd => foreach (fun kd => with_val h (happly_one nanos) (fst kd, snd (snd kd))) (snd nd)) l dk =
  foreach (fun nd => foreach (apply_one nanos) (snd nd)) (zmap (dmap (vofp h)) l) dk.
Proof.
  intros H. revert dk. induction H as [|nd l Hn _ IH]; intros dk; simpl; [reflexivity|].
  unfold bind. rewrite happly_inner by exact Hn. simpl.
  match goal with |- (let (_, _) := ?a in _) = (let (_, _) := ?b in _) => change b with a; destruct a as [[[]|e] dk'] end;
    [apply IH|reflexivity].
Qed.
Lemma deltas_sim h (reads writes : dict loc) acc :
  dmap (vofp h) (fold_left (fun acc kv => dset (fst kv) (dget (fst kv) reads, snd kv) acc) writes acc) =
  fold_left (fun acc kv => dset (fst kv) (dget (fst kv) (dmap (vof h) reads), snd kv) acc) (dmap (vof h) writes) (dmap (vofp h) acc).
Proof.
  revert acc. induction writes as [|[k l] w IH]; intros acc; simpl; [reflexivity|].
  rewrite IH, dset_dmap, dget_dmap. reflexivity.
Qed.
Lemma deltas_ok h (reads writes : dict loc) acc : okdict h reads -> okdict h writes -> okdd h acc ->
  okdd h (fold_left (fun acc kv => dset (fst kv) (dget (fst kv) reads, snd kv) acc) writes acc).
Proof.
  intros R W. revert acc. induction W as [|[k l] w Hl _ IH]; intros acc H; simpl; [exact H|].
  apply IH. apply (Forall_dset (okp h)); [exact H|]. split; [|exact Hl]. simpl.
  destruct (dget k reads) as [a|] eqn:E; [|trivial]. exact (Forall_dget _ _ _ _ R E).
Qed.
Lemma hhard_sim n h d : okd h d ->
  let '(r, d') := hhard n h d in okd h d' /\ hard_apply n (absd h d) = (r, absd h d').
Proof.
  intros H. pose proof H as (A & B & C & D & E). unfold hhard, hard_apply.
  set (dl := fold_left (fun acc kv => dset (fst kv) (dget (fst kv) (hd_reads d), snd kv) acc) (hd_writes d) []).
  assert (Hdl : okdd h dl) by (apply deltas_ok; [exact C|exact B|constructor]).
  set (ds := zset n dl (hd_deltas d)).
  assert (Hds : Forall (fun nd => okdd h (snd nd)) ds) by (apply Forall_zset; assumption).
  set (cache := dupdate (hd_cache d) (hd_writes d)).
  assert (Hc : okdict h cache) by (apply Forall_dupdate; assumption).
  rewrite happly_outer by (apply Forall_upto, Forall_zsort, Hds).
  unfold bind at 1, modify at 1.
  assert (E1 : fold_left (fun acc kv => dset (fst kv) (dget (fst kv) (dv_reads (absd h d)), snd kv) acc) (dv_writes (absd h d)) [] = dmap (vofp h) dl).
  { unfold dl. rewrite deltas_sim. reflexivity. }
  rewrite E1. change (dv_deltas (absd h d)) with (zmap (dmap (vofp h)) (hd_deltas d)). rewrite <- zset_zmap. fold ds.
  change (dupdate (dv_cache (absd h d)) (dv_writes (absd h d))) with (dupdate (dmap (vof h) (hd_cache d)) (dmap (vof h) (hd_writes d))).
  rewrite <- dupdate_dmap. fold cache.
  unfold bind, gets, on_disk, modify. simpl. rewrite <- zsort_zmap, <- upto_zmap.
  destruct (foreach (fun nd => foreach (apply_one n) (snd nd)) (zmap (dmap (vofp h)) (upto n (zsort ds))) (hd_disk d)) as [[[]|e] dk].
  - split; [repeat split; try assumption; try constructor; apply Forall_filter; assumption|].
    f_equal. unfold absd, set_deltas, set_writes, set_reads, set_cache; simpl.
    f_equal. rewrite (filter_zmap (dmap (vofp h)) (fun z => negb (existsb (fun y => Z.eqb z (fst y)) (upto n (zsort ds))))).
    apply filter_ext. intros x. rewrite (existsb_zmap (dmap (vofp h)) (fun y => Z.eqb (fst x) y)). reflexivity.
  - split; [repeat split; try assumption; constructor|reflexivity].
Qed.
Lemma roll_inner h none (d : dict (option loc * loc)) c : vof h none = VNone ->
  dmap (vof h) (fold_left (fun c kd => dset (fst kd) (match fst (snd kd) with Some l => l | None => none end) c) d c) =
  fold_left (fun c kd => dset (fst kd) (of_opt (fst (snd kd))) c) (dmap (vofp h) d) (dmap (vof h) c).
Proof.
  intros N. revert c. induction d as [|[k [o l]] d IH]; intros c; simpl; [reflexivity|].
  rewrite IH, dset_dmap. destruct o; simpl; [reflexivity|]. rewrite N. reflexivity.
Qed.
Lemma roll_outer h none (ds : list (Z * dict (option loc * loc))) c : vof h none = VNone ->
  dmap (vof h) (fold_left (fun c nd => fold_left (fun c kd => dset (fst kd) (match fst (snd kd) with Some l => l | None => none end) c) (snd nd) c) ds c) =
  fold_left (fun c nd => fold_left (fun c kd => dset (fst kd) (of_opt (fst (snd kd))) c) (snd nd) c) (zmap (dmap (vofp h)) ds) (dmap (vof h) c).
Proof.
  intros N. revert c. induction ds as [|nd ds IH]; intros c; simpl; [reflexivity|]. rewrite IH, roll_inner by exact N. reflexivity.
Qed.
Lemma roll_ok h none (ds : list (Z * dict (option loc * loc))) c : okl h none -> Forall (fun nd => okdd h (snd nd)) ds -> okdict h c ->
  okdict h (fold_left (fun c nd => fold_left (fun c kd => dset (fst kd) (match fst (snd kd) with Some l => l | None => none end) c) (snd nd) c) ds c).
Proof.
  intros N H. revert c. induction H as [|[z dd] ds Hd _ IH]; intros c Hc; simpl; [exact Hc|]. apply IH.
  clear IH. simpl in Hd. revert c Hc. induction Hd as [|[k [o l]] dd [Ho _] _ IH]; intros c Hc; simpl; [exact Hc|]. apply IH.
  apply Forall_dset; [exact Hc|]. destruct o; [exact Ho|exact N].
Qed.
Lemma hrollback_sim n none h d : okd h d -> val h none = Some VNone ->
  okd h (hrollback n none d) /\ rollback n (absd h d) = (Ok tt, absd h (hrollback n none d)).
Proof.
  intros H V. pose proof H as (A & B & C & D & E). destruct n as [n|]; simpl.
  - split.
    + repeat split; try assumption; [apply Forall_filter; assumption|]. apply roll_ok; [exists VNone; exact V| |exact E].
      apply Forall_downto, Forall_rev, Forall_zsort, A.
    + unfold modify, absd, set_deltas, set_cache; simpl. rewrite <- zsort_zmap, <- rev_zmap, <- downto_zmap.
      rewrite (roll_outer h none) by exact (val_vof _ _ _ V). do 2 f_equal.
      rewrite (filter_zmap (dmap (vofp h)) (fun z => negb (existsb (fun y => Z.eqb z (fst y)) (downto n (rev (zsort (hd_deltas d))))))).
      apply filter_ext. intros x. rewrite (existsb_zmap (dmap (vofp h)) (fun y => Z.eqb (fst x) y)). reflexivity.
  - split; [repeat split; try assumption; constructor|reflexivity].
Qed.

(** ** One statement *)
Definition oks (s : hstate) : Prop := okd (hs_heap s) (hs_drv s) /\ okdict (hs_heap s) (hs_snap s).
Definition abs (s : hstate) : vstate :=
  mkVS (mkW (absd (hs_heap s) (hs_drv s)) (hs_rt s)) (dmap (vof (hs_heap s)) (hs_snap s)).
Lemma same_dict h h' d : okdict h d -> (forall c, In c (map snd d) -> val h' c = val h c) -> okdict h' d /\ dmap (vof h') d = dmap (vof h) d.
Proof.
  induction 1 as [|[k l] d [v V] _ IH]; intros H; simpl in *; [split; [constructor|reflexivity]|].
  destruct IH as [I1 I2]; [auto|]. assert (E : val h' l = val h l) by auto. rewrite I2. unfold vof at 1. rewrite E. split; [|reflexivity].
  constructor; [|exact I1]. exists v. simpl. congruence.
Qed.
Lemma same_dd h h' d : okdd h d -> (forall c, In c (flat_map delta_locs d) -> val h' c = val h c) ->
  okdd h' d /\ dmap (vofp h') d = dmap (vofp h) d.
Proof.
  induction 1 as [|[k [o l]] d [Ho [v V]] _ IH]; intros H; simpl in *; [split; [constructor|reflexivity]|].
  destruct IH as [I1 I2]; [intros c Hc; apply H, in_or_app; right; exact Hc|].
  assert (E : val h' l = val h l) by (apply H; unfold delta_locs; simpl; rewrite !in_app_iff; simpl; auto).
  assert (P : okp h' (o, l) /\ vofp h' (o, l) = vofp h (o, l)).
  { unfold okp, vofp, vof, okl; simpl. rewrite E. destruct o as [a|]; simpl in *.
    - assert (E' : val h' a = val h a) by (apply H; unfold delta_locs; simpl; auto). rewrite E'. split; [split; [exact Ho|exists v; exact V]|reflexivity].
    - split; [split; [trivial|exists v; exact V]|reflexivity]. }
  destruct P as [P1 P2]. rewrite I2, P2. split; [constructor; assumption|reflexivity].
Qed.
Lemma same_deltas h h' (ds : list (Z * dict (option loc * loc))) : Forall (fun nd => okdd h (snd nd)) ds ->
  (forall c, In c (flat_map (fun nd => flat_map delta_locs (snd nd)) ds) -> val h' c = val h c) ->
  Forall (fun nd => okdd h' (snd nd)) ds /\ zmap (dmap (vofp h')) ds = zmap (dmap (vofp h)) ds.
Proof.
  induction 1 as [|[z d] ds Hd _ IH]; intros H; simpl in *; [split; [constructor|reflexivity]|].
  destruct IH as [I1 I2]; [intros c Hc; apply H, in_or_app; right; exact Hc|].
  destruct (same_dd h h' d Hd) as [J1 J2]; [intros c Hc; apply H, in_or_app; left; exact Hc|].
  rewrite I2, J2. split; [constructor; assumption|reflexivity].
Qed.
Lemma same_cells s h' : oks s -> (forall c, In c (cells s) -> val h' c = val (hs_heap s) c) ->
  let s' := mkHS h' (hs_drv s) (hs_rt s) (hs_snap s) (hs_regs s) in oks s' /\ abs s' = abs s.
Proof.
  destruct s as [h d rt snap regs]. intros [(A & B & C & D & E) F] H. unfold cells in H. simpl in *.
  assert (I : forall (l1 l2 : list loc), (forall c, In c (l1 ++ l2) -> val h' c = val h c) ->
    (forall c, In c l1 -> val h' c = val h c) /\ (forall c, In c l2 -> val h' c = val h c)).
  { intros l1 l2 X. split; intros c Hc; apply X, in_or_app; auto. }
  apply I in H as [H1 H]. apply I in H as [H2 H]. apply I in H as [H3 H]. apply I in H as [H4 H]. apply I in H as [H5 H6].
  destruct (same_deltas h h' _ A H1) as [A1 A2]. destruct (same_dict h h' _ B H2) as [B1 B2].
  destruct (same_dict h h' _ C H3) as [C1 C2]. destruct (same_dict h h' _ D H4) as [D1 D2].
  destruct (same_dict h h' _ E H5) as [E1 E2]. destruct (same_dict h h' _ F H6) as [F1 F2].
  split; [repeat split; assumption|]. unfold abs, absd; simpl. rewrite A2, B2, C2, D2, E2, F2. reflexivity.
Qed.
Lemma grow s h' d' rt' regs' : oks s -> ext (hs_heap s) h' -> okd h' d' ->
  let s' := mkHS h' d' rt' (hs_snap s) regs' in
  oks s' /\ abs s' = mkVS (mkW (absd h' d') rt') (vs_snap (abs s)).
Proof.
  intros [_ F] X H. split; [split; [exact H|eapply okdict_ext; eassumption]|].
  unfold abs; simpl. rewrite (dmap_vof_ext _ _ _ X F). reflexivity.
Qed.
Lemma step_sim o s : oks s ->
  match o with HMutate r _ => forall a, nth_error (hs_regs s) r = Some a -> ~ shared s a | _ => True end ->
  let '(e, s') := hdo o s in
  oks s' /\ match e with Some (q, r) => vdo q (abs s) = (r, abs s') | None => abs s' = abs s end.
Proof.
  intros H Hm. pose proof H as [Hd Hs]. destruct s as [h d rt snap regs] eqn:Es. simpl in Hd, Hs. unfold hdo.
  destruct o as [k|k r txn|o|r i|r o| |n|n|p| | | | ].
  - pose proof (hget_sim k h d Hd) as G. destruct (hget k h d) as [[r h'] d']. destruct G as (X & O & E & V).
    destruct r as [l|e].
    + destruct (grow (mkHS h d rt snap regs) h' d' rt (regs ++ [l]) H X O) as [G1 G2]. split; [exact G1|]. simpl in *. rewrite E, G2. reflexivity.
    + destruct (grow (mkHS h d rt snap regs) h' d' rt regs H X O) as [G1 G2]. split; [exact G1|]. simpl in *. rewrite E, G2. reflexivity.
  - destruct (nth_error regs r) as [l|]; [|split; [exact H|reflexivity]].
    destruct (val h l) as [v|] eqn:V; [|split; [exact H|reflexivity]].
    assert (Q : forall w, set k v txn w = (let! (kl, vl) := lift (encode_kv_len k v) in
      on_rt (deduct_write kl vl);; on_drv (set_body k v txn)) w) by reflexivity.
    unfold bind, lift, on_rt, on_drv in Q.
    destruct (encode_kv_len k v) as [[kl vl]|e]; [|split; [exact H|unfold vdo; cbv zeta; rewrite Q; reflexivity]].
    specialize (Q (vs_w (abs (mkHS h d rt snap regs)))). cbn -[deduct_write set_body hset_body set absd] in Q.
    destruct (deduct_write kl vl rt) as [[[]|e] rt'];
      [|split; [exact H|unfold vdo; cbv zeta; cbn -[set]; rewrite Q; reflexivity]].
    pose proof (hset_body_sim k l txn h d v Hd V) as B.
    destruct (hset_body k l txn h d) as [[b h'] d']. destruct B as (X & O & E). cbn [w_drv w_rt] in Q. rewrite E in Q.
    destruct (grow (mkHS h d rt snap regs) h' d' rt' regs H X O) as [G1 G2]. split; [exact G1|].
    unfold vdo; cbv zeta; cbn -[set] in *; rewrite Q, G2. reflexivity.
  - destruct (look regs o) as [o'|]; [|split; [exact H|reflexivity]]. unfold new.
    pose proof (ext_app h [o']) as X.
    destruct (grow (mkHS h d rt snap regs) (h ++ [o']) d rt (regs ++ [length h]) H X (okd_ext _ _ _ X Hd)) as [G1 G2]. split; [exact G1|].
    etransitivity; [exact G2|]. rewrite (absd_ext _ _ _ X Hd). reflexivity.
  - destruct (nth_error regs r) as [l|]; [|split; [exact H|reflexivity]].
    destruct (nth_error h l) as [o|]; [|split; [exact H|reflexivity]].
    destruct (nth_error (parts o) i); split; try exact H; reflexivity.
  - destruct (nth_error regs r) as [l|] eqn:R; [|split; [exact H|reflexivity]].
    destruct (look regs o) as [o'|]; [|split; [exact H|reflexivity]].
    destruct (nth_error h l) as [old|]; [|split; [exact H|reflexivity]].
    destruct (can_become old o'); [|split; [exact H|reflexivity]].
    apply (same_cells (mkHS h d rt snap regs) (upd l o' h) H). intros c Hc. apply val_mutate. intros Rc.
    apply (Hm l R). exists c. split; assumption.
  - pose proof (hcommit_sim h d Hd) as C. destruct (hcommit h d) as [r d']. destruct C as [O E].
    destruct (grow (mkHS h d rt snap regs) h d' rt regs H (ext_refl h) O) as [G1 G2]. split; [exact G1|]. simpl in *. rewrite E, G2. reflexivity.
  - pose proof (hhard_sim n h d Hd) as C. destruct (hhard n h d) as [r d']. destruct C as [O E].
    destruct (grow (mkHS h d rt snap regs) h d' rt regs H (ext_refl h) O) as [G1 G2]. split; [exact G1|]. cbn -[hard_apply] in *. rewrite E, G2. reflexivity.
  - unfold new. pose proof (ext_app h [OAtom VNone]) as X.
    destruct (hrollback_sim n (length h) (h ++ [OAtom VNone]) d (okd_ext _ _ _ X Hd)) as [O E]; [apply val_top|].
    destruct (grow (mkHS h d rt snap regs) _ _ rt regs H X O) as [G1 G2]. split; [exact G1|]. cbn -[rollback hrollback] in *.
    rewrite <- (absd_ext _ _ _ X Hd), E, G2. reflexivity.
  - split.
    + destruct Hd as (A & B & C & D & E). repeat split; simpl; try assumption. apply Forall_filter. exact E.
    + unfold abs, absd, upd_drv, cache_drop, set_cache, in_drv; simpl. rewrite (filter_dmap (vof h) (fun k => negb (p k))). reflexivity.
  - split; [|reflexivity]. repeat split; simpl; try constructor. exact Hs.
  - unfold deepcopy. pose proof (ext_app h (map (omap (fun l => l + length h)) h)) as X.
    pose proof Hd as (A & B & C & D & E).
    assert (Hsnap : okdict (h ++ map (omap (fun l => l + length h)) h) (map (fun kl => (fst kl, snd kl + length h)) (hd_writes d)) /\
              dmap (vof (h ++ map (omap (fun l => l + length h)) h)) (map (fun kl => (fst kl, snd kl + length h)) (hd_writes d)) = dmap (vof h) (hd_writes d)).
    { induction B as [|[k l] w [v V] _ IH]; simpl; [split; [constructor|reflexivity]|]. destruct IH as [I1 I2].
      simpl in V. pose proof (val_copy _ _ _ V) as V'. split; [constructor; [exists v; exact V'|exact I1]|].
      rewrite I2, (val_vof _ _ _ V'), (val_vof _ _ _ V). reflexivity. }
    destruct Hsnap as [S1 S2]. pose proof (okd_ext _ _ _ X Hd) as Hd'. split.
    + destruct Hd' as (A' & B' & C' & D' & E'). repeat split; simpl; try assumption. constructor.
    + unfold abs; simpl. rewrite S2. f_equal. f_equal. f_equal. rewrite <- (absd_ext _ _ _ X Hd). reflexivity.
  - split; [|reflexivity]. destruct Hd as (A & B & C & D & E). repeat split; simpl; try assumption; constructor.
  - split; [|reflexivity]. destruct Hd as (A & B & C & D & E). repeat split; simpl; try assumption. constructor.
Qed.
Lemma run_sim l s : oks s -> careful l s ->
  let '(tr, s') := hrun l s in oks s' /\ vrun (map fst tr) (abs s) = (map snd tr, abs s').
Proof.
  revert s. induction l as [|o l IH]; intros s H Hc; simpl; [split; [exact H|reflexivity]|].
  destruct Hc as [Hm Hc]. pose proof (step_sim o s H Hm) as S. destruct (hdo o s) as [e s1]. destruct S as [H1 E].
  specialize (IH s1 H1 Hc). destruct (hrun l s1) as [tr s2]. destruct IH as [H2 E2]. split; [exact H2|].
  destruct e as [[q r]|]; simpl; [rewrite E, E2|rewrite <- E, E2]; reflexivity.
Qed.
