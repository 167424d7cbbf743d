(** * Reading a disk after one update *)
From Verif Require Import Model.Base Model.State Model.Value Model.Encoder Model.Hdf5 Model.Runtime Model.Driver.
From Verif Require Import Spec.DriverSpec Proofs.BaseFacts.
From Coq Require Import Lia.

Lemma gpath_eqb_spec a b : reflect (a = b) (gpath_eqb a b).
Proof.
  revert b; induction a as [|x a IH]; destruct b as [|y b]; cbn [gpath_eqb]; try (constructor; congruence).
  destruct (str_eqb_spec x y) as [->|H]; cbn [andb]; [|constructor; congruence].
  destruct (IH b) as [->|H]; constructor; congruence.
Qed.
Lemma gpath_eqb_refl a : gpath_eqb a a = true.
Proof. destruct (gpath_eqb_spec a a); congruence. Qed.
Lemma fget_fset p q a f : fget p (fset q a f) = if gpath_eqb p q then Some a else fget p f.
Proof.
  induction f as [|[r b] f IH]; cbn [fset fget]; [reflexivity|].
  destruct (gpath_eqb_spec q r) as [->|H]; cbn [fget].
  - destruct (gpath_eqb_spec p r); reflexivity.
  - rewrite IH. destruct (gpath_eqb_spec p r) as [->|H2]; [|reflexivity].
    destruct (gpath_eqb_spec r q); congruence.
Qed.
Lemma attrs_at_fset p q a f : attrs_at (fset q a f) p = if gpath_eqb p q then a else attrs_at f p.
Proof. unfold attrs_at. rewrite fget_fset. destruct (gpath_eqb p q); reflexivity. Qed.
Lemma attrs_at_ensure f p q : attrs_at (ensure f p) q = attrs_at f q.
Proof.
  unfold ensure. destruct (fget p f) eqn:E; [reflexivity|]. rewrite attrs_at_fset.
  destruct (gpath_eqb_spec q p) as [->|]; [|reflexivity]. unfold attrs_at. rewrite E. reflexivity.
Qed.
Lemma attrs_at_require f p q : attrs_at (require_group f p) q = attrs_at f q.
Proof.
  unfold require_group. generalize (prefixes p). intros l. revert f. induction l as [|r l IH]; intros f; cbn [fold_left]; [reflexivity|].
  rewrite IH. apply attrs_at_ensure.
Qed.
Lemma attrs_at_write_value f p v q :
  attrs_at (write_value f p v) q = if gpath_eqb q p then mkAttrs v (at_block (attrs_at f p)) else attrs_at f q.
Proof. unfold write_value. cbv zeta. rewrite attrs_at_fset, !attrs_at_require. reflexivity. Qed.
Lemma attrs_at_write_block f p b q :
  attrs_at (write_block f p b) q = if gpath_eqb q p then mkAttrs (at_value (attrs_at f p)) b else attrs_at f q.
Proof. unfold write_block. cbv zeta. rewrite attrs_at_fset, !attrs_at_require. reflexivity. Qed.

(** Attributes at a place of the disk *)
Definition dattrs (d : disk) (pl : place) : attrs :=
  match open_r d (fst pl) with None => no_attrs | Some f => attrs_at f (snd pl) end.
Lemma get_attr_dattrs {A} (sel : attrs -> option A) d fn g :
  sel no_attrs = None -> g <> [] -> get_attr sel d fn g = Ok (sel (dattrs d (fn, norm g))).
Proof.
  intros Hs Hg. unfold get_attr, dattrs, attrs_at. cbn [fst snd].
  destruct (open_r d fn) as [f|]; [|rewrite Hs; reflexivity].
  destruct (str_eqb_spec g []); [contradiction|]. destruct (fget (norm g) f); [reflexivity|rewrite Hs; reflexivity].
Qed.
Definition place_eqb (p q : place) : bool := (str_eqb (fst p) (fst q) && gpath_eqb (snd p) (snd q))%bool.
Lemma place_eqb_spec p q : reflect (p = q) (place_eqb p q).
Proof.
  destruct p as [a b], q as [a' b']. unfold place_eqb. cbn [fst snd].
  destruct (str_eqb_spec a a') as [->|H]; cbn [andb]; [|constructor; congruence].
  destruct (gpath_eqb_spec b b') as [->|H]; constructor; congruence.
Qed.
Lemma same_place_eqb k k' : same_place k k' = place_eqb (place_of k) (place_of k').
Proof. reflexivity. Qed.
Lemma same_place_refl k : same_place k k = true.
Proof. rewrite same_place_eqb. destruct (place_eqb_spec (place_of k) (place_of k)); congruence. Qed.

Lemma attrs_at_new p : attrs_at new_file p = no_attrs.
Proof. unfold attrs_at, new_file. cbn [fget]. destruct (gpath_eqb p []); reflexivity. Qed.
Lemma dattrs_dset d fn f q : name_ok fn = true ->
  dattrs (dset fn f d) q = if str_eqb (fst q) fn then attrs_at f (snd q) else dattrs d q.
Proof.
  intros Hn. unfold dattrs, open_r. rewrite dget_dset. destruct (str_eqb_spec (fst q) fn) as [->|H]; [rewrite Hn; reflexivity|reflexivity].
Qed.
Lemma attrs_at_open_a d fn p : name_ok fn = true -> attrs_at (open_a d fn) p = dattrs d (fn, p).
Proof.
  intros Hn. unfold open_a, dattrs, open_r. cbn [fst snd]. rewrite Hn. destruct (dget fn d); [reflexivity|apply attrs_at_new].
Qed.

(** After [h5_set] *)
Lemma h5_set_ok fn g v b d : name_ok fn = true -> g <> [] ->
  exists d', h5_set fn g v b d = (Ok tt, d') /\
    forall q, dattrs d' q = if place_eqb q (fn, norm g) then mkAttrs v b else dattrs d q.
Proof.
  intros Hn Hg. unfold h5_set. rewrite Hn. cbn [negb]. destruct (str_eqb_spec g []); [contradiction|].
  eexists. split; [reflexivity|]. intros q. rewrite dattrs_dset by exact Hn. unfold place_eqb. cbn [fst snd].
  rewrite attrs_at_write_block, !attrs_at_write_value, gpath_eqb_refl. cbn [at_value].
  destruct (str_eqb_spec (fst q) fn) as [E|]; cbn [andb]; [|reflexivity].
  destruct (gpath_eqb (snd q) (norm g)); [reflexivity|].
  rewrite attrs_at_open_a by exact Hn. rewrite <- E. destruct q; reflexivity.
Qed.
(** After [h5_delete] *)
Lemma h5_delete_ok fn g d : name_ok fn = true -> g <> [] ->
  exists d', h5_delete fn g d = (Ok tt, d') /\
    forall q, dattrs d' q = if (place_eqb q (fn, norm g) && match at_value (dattrs d q) with Some _ => true | None => false end)%bool
                            then no_attrs else dattrs d q.
Proof.
  intros Hn Hg. unfold h5_delete. rewrite Hn. cbn [negb]. destruct (str_eqb_spec g []); [contradiction|].
  assert (HO : forall q, dattrs (dset fn (open_a d fn) d) q = dattrs d q).
  { intros q. rewrite dattrs_dset by exact Hn. destruct (str_eqb_spec (fst q) fn) as [E|]; [|reflexivity].
    rewrite attrs_at_open_a by exact Hn. rewrite <- E. destruct q; reflexivity. }
  assert (HV : dattrs d (fn, norm g) = attrs_at (open_a d fn) (norm g)) by (rewrite attrs_at_open_a by exact Hn; reflexivity).
  unfold attrs_at in HV.
  destruct (fget (norm g) (open_a d fn)) as [[[t|] b]|] eqn:E; eexists; (split; [reflexivity|]); intros q.
  - rewrite dattrs_dset by exact Hn. rewrite attrs_at_fset. unfold place_eqb. cbn [fst snd].
    destruct (str_eqb_spec (fst q) fn) as [Eq|]; cbn [andb]; [|reflexivity].
    destruct (gpath_eqb_spec (snd q) (norm g)) as [Eg|]; cbn [andb].
    + destruct q as [q1 q2]. cbn [fst snd] in *. subst. rewrite HV. reflexivity.
    + rewrite attrs_at_open_a by exact Hn. rewrite <- Eq. destruct q; reflexivity.
  - rewrite HO. destruct (place_eqb_spec q (fn, norm g)) as [->|]; cbn [andb]; [|reflexivity]. rewrite HV. reflexivity.
  - rewrite HO. destruct (place_eqb_spec q (fn, norm g)) as [->|]; cbn [andb]; [|reflexivity]. rewrite HV. reflexivity.
Qed.
(** Failures: an unopenable file changes nothing; an empty name creates the file. *)
Lemma h5_set_inv fn g v b d x d' : h5_set fn g v b d = (x, d') ->
  (x = Ok tt /\ name_ok fn = true /\ g <> []) \/
  (x <> Ok tt /\ forall q, dattrs d' q = dattrs d q).
Proof.
  unfold h5_set. destruct (name_ok fn) eqn:Hn; cbn [negb].
  - destruct (str_eqb_spec g []) as [->|Hg]; intros H; injection H as <- <-.
    + right. split; [discriminate|]. intros q. rewrite dattrs_dset by exact Hn.
      destruct (str_eqb_spec (fst q) fn) as [E|]; [|reflexivity]. rewrite attrs_at_open_a by exact Hn. rewrite <- E. destruct q; reflexivity.
    + left. auto.
  - intros H; injection H as <- <-. right. split; [discriminate|reflexivity].
Qed.
Lemma h5_delete_inv fn g d x d' : h5_delete fn g d = (x, d') ->
  (x = Ok tt /\ name_ok fn = true /\ g <> []) \/
  (x <> Ok tt /\ forall q, dattrs d' q = dattrs d q).
Proof.
  unfold h5_delete. destruct (name_ok fn) eqn:Hn; cbn [negb].
  - destruct (str_eqb_spec g []) as [->|Hg]; intros H.
    + injection H as <- <-. right. split; [discriminate|]. intros q. rewrite dattrs_dset by exact Hn.
      destruct (str_eqb_spec (fst q) fn) as [E|]; [|reflexivity]. rewrite attrs_at_open_a by exact Hn. rewrite <- E. destruct q; reflexivity.
    + left. destruct (fget (norm g) (open_a d fn)) as [[[t|] b]|]; injection H as <- <-; auto.
  - intros H; injection H as <- <-. right. split; [discriminate|reflexivity].
Qed.

(** ** fresh_read *)
Lemma fresh_read_value d k : fresh_read d k = value_from_disk k d.
Proof. unfold fresh_read, get, find, driver0. cbn. destruct (value_from_disk k d); reflexivity. Qed.
Lemma value_from_disk_attrs d k : key_ok k -> value_from_disk k d = decode (at_value (dattrs d (place_of k))).
Proof.
  unfold key_ok, value_from_disk, place_of. destruct (parse_key k) as [fn g]. cbn [snd]. intros Hg.
  unfold get_value_from_disk, get_value. rewrite get_attr_dattrs by (auto; reflexivity). reflexivity.
Qed.
Lemma fresh_read_attrs d k : key_ok k -> fresh_read d k = decode (at_value (dattrs d (place_of k))).
Proof. intros H. rewrite fresh_read_value. apply value_from_disk_attrs, H. Qed.
Lemma stored_block_attrs d k : key_ok k -> stored_block d k = Ok (at_block (dattrs d (place_of k))).
Proof.
  unfold key_ok, stored_block, place_of. destruct (parse_key k) as [fn g]. cbn [snd]. intros Hg.
  unfold get_block. rewrite get_attr_dattrs by (auto; reflexivity). reflexivity.
Qed.

(** ** One pending write reaches the disk *)
Lemma encode_none : encode VNone = Ok (u "null"). Proof. reflexivity. Qed.
Definition new_value (x : pyval) : option pystr := match x with VNone => None | _ => match encode x with Ok t => Some t | Err _ => None end end.
Lemma svtd_inv fn g v b d y d' : set_value_to_disk fn g v b d = (y, d') ->
  (y = Ok tt /\ name_ok fn = true /\ g <> [] /\ (forall e, encode v <> Err e) /\
     forall q, dattrs d' q = if place_eqb q (fn, norm g) then mkAttrs (new_value v) (Some (match b with Some z => z | None => (-1)%Z end)) else dattrs d q) \/
  (y <> Ok tt /\ forall q, dattrs d' q = dattrs d q).
Proof.
  unfold set_value_to_disk, bind, lift. intros H.
  assert (HE : (exists t, encode v = Ok t /\ (match v with VNone => Ok None | _ => mapr Some (encode v) end) = Ok (new_value v)) \/
               (exists e, encode v = Err e /\ (match v with VNone => Ok None | _ => mapr Some (encode v) end) = @Err (option pystr) e)).
  { destruct (encode v) as [t|e] eqn:E; [left; exists t|right; exists e]; (split; [reflexivity|]);
      unfold new_value; try rewrite E; destruct v; try reflexivity; discriminate E. }
  destruct HE as [(t & E & HE)|(e & E & HE)]; rewrite HE in H.
  - destruct (h5_set_inv _ _ _ _ _ _ _ H) as [(-> & Hn & Hg)|(Hx & HD)]; [left|right; auto].
    repeat split; auto. { intros e. rewrite E. discriminate. }
    destruct (h5_set_ok fn g (new_value v) (Some match b with Some z => z | None => (-1)%Z end) d Hn Hg) as (d2 & E2 & HD).
    rewrite E2 in H. injection H as <-. exact HD.
  - injection H as <- <-. right. split; [discriminate|reflexivity].
Qed.
Lemma commit_one_inv k x d y d' : commit_one (k, x) d = (y, d') ->
  (y = Ok tt /\ key_writable k /\ (forall e, encode x <> Err e) /\
     forall q, at_value (dattrs d' q) = if place_eqb q (place_of k) then new_value x else at_value (dattrs d q)) \/
  (y <> Ok tt /\ forall q, dattrs d' q = dattrs d q).
Proof.
  unfold commit_one, key_writable, key_ok, place_of. cbn [fst snd]. destruct (parse_key k) as [fn g]. cbn [fst snd].
  destruct (is_none x) eqn:EN; intros H.
  - assert (x = VNone) as -> by (destruct x; try discriminate; reflexivity).
    destruct (h5_delete_inv _ _ _ _ _ H) as [(-> & Hn & Hg)|(Hx & HD)]; [left|right; auto].
    repeat split; auto. { intros e. rewrite encode_none. discriminate. }
    destruct (h5_delete_ok fn g d Hn Hg) as (d2 & E2 & HD). rewrite E2 in H. injection H as <-.
    intros q. rewrite HD. destruct (place_eqb q (fn, norm g)); cbn [andb new_value]; [|reflexivity].
    destruct (at_value (dattrs d q)) eqn:E; [reflexivity|exact E].
  - destruct (svtd_inv _ _ _ _ _ _ _ H) as [(-> & Hn & Hg & HE & HD)|(Hx & HD)]; [left|right; auto].
    repeat split; auto. intros q. rewrite HD. destruct (place_eqb q (fn, norm g)); reflexivity.
Qed.
Lemma commit_one_ok k x d : key_writable k -> (forall e, encode x <> Err e) -> exists d', commit_one (k, x) d = (Ok tt, d').
Proof.
  unfold commit_one, key_writable, key_ok. cbn [fst snd]. destruct (parse_key k) as [fn g]. cbn [fst snd]. intros (Hg & Hn) HE.
  destruct (is_none x) eqn:EN.
  - destruct (h5_delete_ok fn g d Hn Hg) as (d2 & E2 & _). eauto.
  - unfold set_value_to_disk, bind, lift.
    destruct (encode x) as [t|e] eqn:E; [|exfalso; apply (HE e); reflexivity].
    assert (exists z, (match x with VNone => Ok None | _ => mapr Some (Ok t) end) = Ok z) as (z & ->) by (destruct x; eexists; reflexivity).
    destruct (h5_set_ok fn g z (Some (-1)%Z) d Hn Hg) as (d2 & E2 & _). eauto.
Qed.

(** ** A sequence of them *)
Lemma commit_all_app l1 l2 d : commit_all (l1 ++ l2) d =
  match commit_all l1 d with (Ok _, d') => commit_all l2 d' | r => r end.
Proof.
  revert d. induction l1 as [|x l1 IH]; intros d; cbn [app commit_all foreach]; [reflexivity|].
  unfold bind. destruct (commit_one x d) as [[[]|e] d']; [|reflexivity]. apply IH.
Qed.
Fixpoint last_value (p : place) (l : dict pyval) : option pyval :=
  match l with
  | [] => None
  | (k, x) :: l' => match last_value p l' with Some y => Some y | None => if place_eqb p (place_of k) then Some x else None end
  end.
Lemma last_write_value k l : last_write k l = last_value (place_of k) l.
Proof. induction l as [|[k' x] l IH]; cbn [last_write last_value]; [reflexivity|]. rewrite IH, same_place_eqb. reflexivity. Qed.
Lemma commit_all_values l d d' : commit_all l d = (Ok tt, d') ->
  forall q, at_value (dattrs d' q) = match last_value q l with Some x => new_value x | None => at_value (dattrs d q) end.
Proof.
  revert d. induction l as [|[k x] l IH]; intros d; cbn [commit_all foreach]; intros H q.
  - injection H as <-. reflexivity.
  - unfold bind in H. destruct (commit_one (k, x) d) as [[[]|e] d1] eqn:E; [|discriminate].
    rewrite (IH d1 H q). cbn [last_value]. destruct (last_value q l); [reflexivity|].
    destruct (commit_one_inv _ _ _ _ _ E) as [(_ & _ & _ & HD)|(Hn & _)]; [|congruence].
    rewrite HD. destruct (place_eqb q (place_of k)); reflexivity.
Qed.
Lemma commit_all_ok l d :
  Forall (fun kv => key_writable (fst kv) /\ forall e, encode (snd kv) <> Err e) l -> exists d', commit_all l d = (Ok tt, d').
Proof.
  revert d. induction l as [|[k x] l IH]; intros d H; cbn [commit_all foreach]; [eexists; reflexivity|].
  inversion H as [|? ? [H1 H2] H3]; subst. destruct (commit_one_ok k x d H1 H2) as (d1 & E). unfold bind. rewrite E. apply IH, H3.
Qed.
Lemma commit_all_inv l d d' : commit_all l d = (Ok tt, d') ->
  Forall (fun kv => key_writable (fst kv) /\ forall e, encode (snd kv) <> Err e) l.
Proof.
  revert d. induction l as [|[k x] l IH]; intros d H; [constructor|]. cbn [commit_all foreach] in H. unfold bind in H.
  destruct (commit_one (k, x) d) as [[[]|e] d1] eqn:E; [|discriminate].
  destruct (commit_one_inv _ _ _ _ _ E) as [(_ & H1 & H2 & _)|(Hn & _)]; [|congruence].
  constructor; [split; assumption|]. eapply IH; exact H.
Qed.
Lemma decode_new_value x : (forall e, encode x <> Err e) -> decode (new_value x) = stored_form x.
Proof.
  intros H. unfold new_value, stored_form. destruct (encode x) as [t|e] eqn:E; [|exfalso; apply (H e); reflexivity].
  destruct x; reflexivity.
Qed.
Lemma last_value_In q l x : last_value q l = Some x -> exists k, In (k, x) l /\ place_of k = q.
Proof.
  induction l as [|[k y] l IH]; cbn [last_value]; [discriminate|]. destruct (last_value q l) as [z|].
  - intros H. destruct (IH H) as (k' & Hi & Hp). exists k'. split; [right; exact Hi|exact Hp].
  - destruct (place_eqb_spec q (place_of k)) as [E|]; [|discriminate]. intros H; injection H as ->. exists k. split; [left; reflexivity|symmetry; exact E].
Qed.
(** The general form of "commit makes the pending writes durable" *)
Lemma commit_all_reads l d d' k : commit_all l d = (Ok tt, d') -> key_ok k ->
  fresh_read d' k = match last_write k l with Some x => stored_form x | None => fresh_read d k end.
Proof.
  intros H Hk. rewrite !fresh_read_attrs by exact Hk. rewrite (commit_all_values l d d' H), last_write_value.
  destruct (last_value (place_of k) l) as [x|] eqn:E; [|reflexivity].
  apply decode_new_value. apply commit_all_inv in H. rewrite Forall_forall in H.
  destruct (last_value_In _ _ _ E) as (k' & Hi & _). apply (H _ Hi).
Qed.
