(** * C89 - C92: dumps and listings of the whole storage, and deleting a contract *)
From Verif Require Import Model.Base Model.State Model.Dec Model.Time Model.Value Model.Encoder Model.Hdf5 Model.Runtime Model.Driver Model.Orm.
From Verif Require Import Spec.DriverSpec Spec.OrmSpec Spec.DumpSpec Proofs.BaseFacts Proofs.DiskFacts Proofs.DriverFacts Proofs.OrmFacts.
From Coq Require Import Lia Sorted.
Local Open Scope string_scope.
Local Open Scope list_scope.

(** ** What the driver leaves on disk *)
Definition part_names (f : hfile) : Prop := forall p a n, In (p, a) f -> In n p -> part n.
Record good_disk (d : disk) : Prop := mkGood {
  gd_names : forall fn f, In (fn, f) d -> name_ok fn = true /\ ~ In (ch ".") fn /\ ~ In (ch ":") fn;
  gd_parts : forall fn f, In (fn, f) d -> part_names f;
  gd_nodup : NoDup (dkeys d) }.
Lemma norm_part g n : ~ In (ch ":") g -> In n (norm g) -> part n.
Proof.
  intros Hg Hn. pose proof (norm_no_colon g n Hg Hn) as HC. unfold norm in Hn. apply filter_In in Hn as [Hn Hb]. apply andb_prop in Hb as [H1 H2].
  apply Bool.negb_true_iff, str_eqb_neq in H1. apply Bool.negb_true_iff, str_eqb_neq in H2. split; [exact H1|]. split; [exact H2|]. split; [exact HC|]. exact (split_all_no SLASH g n Hn).
Qed.
Lemma parts_fset p a f : part_names f -> (forall n, In n p -> part n) -> part_names (fset p a f).
Proof. intros H1 H2 q b n Hi Hn. destruct (fset_In _ _ _ _ _ Hi) as [->|H]; [exact (H2 n Hn)|exact (H1 q b n H Hn)]. Qed.
Lemma parts_require f p : part_names f -> (forall n, In n p -> part n) -> part_names (require_group f p).
Proof.
  intros HF HP. unfold require_group. pose proof (prefixes_In p) as HI. revert f HF. induction (prefixes p) as [|q qs IH]; intros f HF; [exact HF|].
  cbn [fold_left]. apply IH; [intros q' Hq'; apply HI; right; exact Hq'|]. unfold ensure. destruct (fget q f); [exact HF|].
  apply parts_fset; [exact HF|]. intros n Hn. apply HP. exact (HI q (or_introl eq_refl) n Hn).
Qed.
Lemma parts_new : part_names new_file.
Proof. intros p a n [E|[]] Hn. injection E as <- <-. destruct Hn. Qed.
Lemma In_dset {V} k (x : V) d k' x' : In (k', x') (dset k x d) -> (k' = k /\ x' = x) \/ In (k', x') d.
Proof.
  induction d as [|[j y] d IH]; cbn [dset]; [intros [E|[]]; injection E; auto|]. destruct (str_eqb_spec k j) as [->|N].
  - intros [E|H]; [injection E; auto|right; right; exact H].
  - intros [E|H]; [right; left; exact E|]. destruct (IH H); [left; assumption|right; right; assumption].
Qed.
Lemma parse_name k : ~ In (ch ".") (fst (parse_key k)) /\ ~ In (ch ":") (fst (parse_key k)).
Proof.
  unfold parse_key.
  assert (H : forall p, ~ In (ch ".") p -> ~ In (ch ".") (match split1 (ch ":") p with Some (a, _) => a | None => p end) /\ ~ In (ch ":") (match split1 (ch ":") p with Some (a, _) => a | None => p end)).
  { intros p Hp. destruct (split1 (ch ":") p) as [[a b]|] eqn:E.
    - apply split1_Some in E as [E1 E2]. split; [|exact E2]. intros Hi. apply Hp. rewrite E1. apply in_or_app. left. exact Hi.
    - apply split1_None in E. auto. }
  destruct (split1 (ch ".") k) as [[a b]|] eqn:E; cbn [fst].
  - apply split1_Some in E as [_ E]. apply H, E.
  - apply split1_None in E. apply H, E.
Qed.
Lemma good_dset d fn f : good_disk d -> name_ok fn = true -> ~ In (ch ".") fn -> ~ In (ch ":") fn -> part_names f -> good_disk (dset fn f d).
Proof.
  intros [H1 H2 H3] N D C F. constructor; [| |apply NoDup_dset, H3]; intros fn' f' Hi; apply In_dset in Hi as [[-> ->]|Hi]; auto; [apply (H1 _ _ Hi)|exact (H2 _ _ Hi)].
Qed.
Lemma good_open d fn : good_disk d -> part_names (open_a d fn).
Proof. intros G. unfold open_a. destruct (dget fn d) eqn:E; [|exact parts_new]. apply dget_In in E. exact (gd_parts _ G _ _ E). Qed.
Lemma stored_good d : stored d -> good_disk d.
Proof.
  induction 1 as [|k x b d S IH|k d S IH|fn d S IH].
  - constructor; [intros ? ? []|intros ? ? []|constructor].
  - destruct (parse_name k) as [P1 P2]. pose proof (parse_no_colon k) as P3. unfold set_value_to_disk. rewrite bind_eq. unfold lift.
    destruct (match x with VNone => Ok None | _ => mapr Some (encode x) end) as [e|e]; [|exact IH]. unfold h5_set. destruct (name_ok (fst (parse_key k))) eqn:N; [|exact IH]. cbn [negb].
    assert (HN : forall n, In n (norm (snd (parse_key k))) -> part n) by (intros n; apply norm_part, P3).
    destruct (str_eqb (snd (parse_key k)) []); cbn [snd]; apply good_dset; auto using good_open.
    unfold write_block, write_value. cbv zeta. apply parts_fset; [|exact HN]. apply parts_require; [|exact HN]. apply parts_fset; [|exact HN]. apply parts_require; [apply good_open, IH|exact HN].
  - destruct (parse_name k) as [P1 P2]. pose proof (parse_no_colon k) as P3. unfold h5_delete. destruct (name_ok (fst (parse_key k))) eqn:N; [|exact IH]. cbn [negb].
    destruct (str_eqb (snd (parse_key k)) []); cbn [snd]; [apply good_dset; auto using good_open|].
    destruct (fget (norm (snd (parse_key k))) (open_a d (fst (parse_key k)))) as [[[v|] b]|]; cbn [snd]; apply good_dset; auto using good_open.
    apply parts_fset; [apply good_open, IH|]. intros n; apply norm_part, P3.
  - destruct IH as [H1 H2 H3]. constructor; [| |apply NoDup_ddel, H3]; intros fn' f' Hi; unfold ddel in Hi; apply filter_In in Hi as [Hi _]; eauto.
Qed.
(** commit, hard_apply and delete_contract leave such directories *)
Lemma stored_foreach {A} (f : A -> st disk unit) l : (forall a d, stored d -> stored (snd (f a d))) -> forall d, stored d -> stored (snd (foreach f l d)).
Proof. apply foreach_inv. Qed.
Lemma stored_commit v : stored (dv_disk v) -> stored (dv_disk (snd (commit v))).
Proof.
  intros S. unfold commit. rewrite bind_eq. cbn [gets]. rewrite bind_eq. unfold on_disk, commit_all.
  pose proof (stored_foreach commit_one (dv_writes v)) as F. specialize (F (fun a d Sd => ltac:(unfold commit_one; pose proof (st_write (fst a) (snd a) None d Sd); pose proof (st_delete (fst a) d Sd); destruct (parse_key (fst a)); destruct (is_none (snd a)); assumption)) (dv_disk v) S).
  destruct (foreach commit_one (dv_writes v) (dv_disk v)) as [[[]|e] d']; exact F.
Qed.
Lemma stored_hard_apply n v : stored (dv_disk v) -> stored (dv_disk (snd (hard_apply n v))).
Proof.
  intros S. unfold hard_apply. rewrite bind_eq. cbn [modify]. rewrite bind_eq. cbn [gets]. rewrite bind_eq. unfold on_disk. cbn [dv_disk set_writes set_reads set_cache set_deltas].
  match goal with |- context [foreach ?g ?l (dv_disk v)] => pose proof (stored_foreach g l) as F end.
  specialize (F (fun a d Sd => stored_foreach (apply_one n) (snd a) (fun b d Sd => ltac:(unfold apply_one; pose proof (st_write (fst b) (snd (snd b)) (Some n) d Sd); destruct (parse_key (fst b)); assumption)) d Sd) (dv_disk v) S).
  destruct (foreach _ _ (dv_disk v)) as [[[]|e] d']; exact F.
Qed.

(** ** Keys and places *)
Lemma norm_parts p : p <> [] -> (forall n, In n p -> part n) -> norm (join [SLASH] p) = p.
Proof.
  intros H1 H2. unfold norm. rewrite split_all_join; [|exact H1|intros n Hn; apply (H2 n Hn)].
  clear H1. induction p as [|x p IH]; [reflexivity|]. cbn [filter]. destruct (H2 x (or_introl eq_refl)) as (Hn & Hd & _).
  apply str_eqb_neq in Hn, Hd. rewrite Hn, Hd. cbn [negb andb]. f_equal. apply IH. intros q Hq. apply H2. right. exact Hq.
Qed.
Lemma place_parts c p : ~ In (ch ".") c -> ~ In (ch ":") c -> p <> [] -> (forall n, In n p -> part n) -> place_of (wkey c p) = (c, p).
Proof.
  intros H1 H2 H3 H4. unfold place_of. rewrite parse_wkey; [|exact H1|exact H2|intros n Hn; apply (H4 n Hn)]. rewrite norm_parts by assumption. reflexivity.
Qed.
Lemma join_nonnil p : p <> [] -> (forall n, In n p -> part n) -> join [SLASH] p <> [].
Proof. intros H1 H2. destruct p as [|x p]; [congruence|]. destruct (H2 x (or_introl eq_refl)) as (Hn & _). destruct x; [congruence|]. destruct p; discriminate. Qed.
Lemma key_ok_parts c p : ~ In (ch ".") c -> ~ In (ch ":") c -> p <> [] -> (forall n, In n p -> part n) -> key_ok (wkey c p).
Proof. intros H1 H2 H3 H4. unfold key_ok. rewrite parse_wkey; [|exact H1|exact H2|intros n Hn; apply (H4 n Hn)]. apply join_nonnil; assumption. Qed.
Lemma regular_wkey k c n args : regular k c n args -> k = wkey c (n :: args) /\ place_of k = (c, n :: args) /\ key_ok k.
Proof.
  intros (-> & H1 & H2 & H3 & H4). rewrite make_key_wkey. assert (H : forall x, In x (n :: args) -> part x) by (intros x [<-|I]; auto).
  split; [reflexivity|]. split; [apply place_parts|apply key_ok_parts]; auto; discriminate.
Qed.
Lemma wkey_inj c p c' p' : ~ In (ch ".") c -> ~ In (ch ":") c -> p <> [] -> (forall n, In n p -> part n) -> ~ In (ch ".") c' -> ~ In (ch ":") c' -> p' <> [] -> (forall n, In n p' -> part n) ->
  wkey c p = wkey c' p' -> c = c' /\ p = p'.
Proof. intros A1 A2 A3 A4 B1 B2 B3 B4 E. pose proof (place_parts c p A1 A2 A3 A4) as X. rewrite E, (place_parts c' p' B1 B2 B3 B4) in X. injection X as <- <-. auto. Qed.
Lemma place_eqb_refl q : place_eqb q q = true.
Proof. destruct (place_eqb_spec q q); congruence. Qed.
Lemma fget_In p a f : fget p f = Some a -> In (p, a) f.
Proof. induction f as [|[q b] f IH]; [discriminate|]. cbn [fget]. destruct (gpath_eqb_spec p q) as [->|]; [intros E; injection E as <-; left; reflexivity|right; auto]. Qed.

(** ** C89 get_all_contract_state *)
Lemma mapm_get {B} (g : pystr -> pyval -> B) ks v bs v' : mapm (fun k => let! x := get k in ret (g k x)) ks v = (Ok bs, v') ->
  (exists r, v' = set_reads r v) /\ Forall2 (fun k b => exists x, find k v = Ok x /\ b = g k x) ks bs.
Proof.
  revert v bs v'. induction ks as [|k ks IH]; intros v bs v' E; cbn [mapm] in E.
  - injection E as <- <-. split; [exists (dv_reads v); symmetry; apply set_reads_same|constructor].
  - rewrite bind_eq in E. rewrite bind_eq in E. pose proof (get_result k v) as G. destruct (ro_get k v) as (r1 & R1). destruct (get k v) as [[x|e] v1]; [|discriminate E]. cbn [fst snd] in G, R1. subst v1. cbn [ret] in E.
    rewrite bind_eq in E. destruct (mapm _ ks (set_reads r1 v)) as [[bs'|e] v2] eqn:E2; [|discriminate E]. injection E as <- <-. apply IH in E2 as ((r2 & ->) & F).
    split; [exists r2; destruct v; reflexivity|]. constructor; [exists x; auto|]. clear - F. induction F as [|j b js bs (y & Fy & ->) F IH]; constructor; [exists y; rewrite find_set_reads in Fy; auto|exact IH].
Qed.
(** the keys of a file, below its root *)
Definition file_keys (fn : pystr) (f : hfile) : list pystr := flat_map (fun pa => match fst pa with [] => [] | p => [wkey fn p] end) f.
Lemma no_slash_colon p : part p -> replace_char SLASH 58 p = p.
Proof. intros (_ & _ & _ & H). unfold replace_char. induction p as [|x p IH]; [reflexivity|]. cbn [map]. destruct (N.eqb_spec x SLASH) as [->|_]; [destruct H; left; reflexivity|]. f_equal. apply IH. intros I. apply H. right. exact I. Qed.
Lemma join_replace p : (forall n, In n p -> part n) -> replace_char SLASH 58 (join (u ":") p) = join (u ":") p.
Proof.
  intros H. induction p as [|x p IH]; [reflexivity|]. destruct p as [|y p]; [apply no_slash_colon, H; left; reflexivity|].
  change (join (u ":") (x :: y :: p)) with (x ++ u ":" ++ join (u ":") (y :: p)). unfold replace_char at 1. rewrite !map_app. fold (replace_char SLASH 58 x) (replace_char SLASH 58 (join (u ":") (y :: p))).
  rewrite no_slash_colon by (apply H; left; reflexivity). rewrite IH by (intros n I; apply H; right; exact I). reflexivity.
Qed.
Lemma all_keys_file fn f k : part_names f -> (In k (map (fun x => fn ++ u "." ++ x) (map (replace_char SLASH 58) (all_keys f))) <-> In k (file_keys fn f)).
Proof.
  intros HP. rewrite map_map. rewrite in_map_iff. unfold file_keys. rewrite in_flat_map. split.
  - intros (y & <- & I). unfold all_keys in I. rewrite In_str_sort, in_flat_map in I. destruct I as ([p a] & I & J). exists (p, a). split; [exact I|]. cbn [fst] in *. destruct p as [|n p]; [destruct J|]. destruct J as [<-|[]]. left.
    rewrite join_replace; [reflexivity|]. intros m Im. exact (HP _ _ m I Im).
  - intros ([p a] & I & J). cbn [fst] in J. destruct p as [|n p]; [destruct J|]. destruct J as [<-|[]]. exists (join (u ":") (n :: p)). split; [|unfold all_keys; rewrite In_str_sort, in_flat_map; exists (n :: p, a); split; [exact I|left; reflexivity]].
    rewrite join_replace; [reflexivity|]. intros m Im. exact (HP _ _ m I Im).
Qed.
Lemma dump_files v0 fns v ls v' : good_disk (dv_disk v0) -> (forall fn, In fn fns -> In fn (dkeys (dv_disk v0))) ->
  mapm (fun fn => let! ks := lift (get_all_keys_from_file (dv_disk v0) fn) in mapm (fun k => let full := fn ++ u "." ++ k in let! x := get full in ret (full, x)) ks) fns v = (Ok ls, v') ->
  (exists r, v' = set_reads r v) /\ (forall k, In k (dkeys (List.concat ls)) <-> exists fn f, In fn fns /\ dget fn (dv_disk v0) = Some f /\ In k (file_keys fn f)) /\ forall k x, In (k, x) (List.concat ls) -> find k v = Ok x.
Proof.
  intros G. revert v ls v'. induction fns as [|fn fns IH]; intros v ls v' HF E; cbn [mapm] in E.
  - injection E as <- <-. split; [exists (dv_reads v); symmetry; apply set_reads_same|]. split; [intros k; split; [intros []|intros (fn & f & [] & _)]|intros k x []].
  - assert (IN := HF fn (or_introl eq_refl)). destruct (dget fn (dv_disk v0)) as [f|] eqn:EF; [|apply dget_None in EF; contradiction].
    pose proof (dget_In _ _ _ EF) as IF. destruct (gd_names _ G _ _ IF) as (NO & _).
    rewrite bind_eq in E. rewrite bind_eq in E. unfold lift at 1 in E. unfold get_all_keys_from_file at 1 in E. unfold open_r in E. rewrite NO, EF in E.
    match type of E with context [mapm ?g ?l v] => destruct (mapm g l v) as [[bs|e] v1] eqn:E1; [|discriminate E] end.
    assert (E1' : mapm (fun k => let! x := get k in ret (k, x)) (map (fun k => fn ++ u "." ++ k) (map (replace_char SLASH 58) (all_keys f))) v = (Ok bs, v1)).
    { rewrite <- E1. clear. generalize (map (replace_char SLASH 58) (all_keys f)) as l. intros l. revert v. induction l as [|a l IH]; intros v; [reflexivity|]. cbn [map mapm]. rewrite !bind_eq. destruct (get (fn ++ u "." ++ a) v) as [[x|e] v2]; [|reflexivity]. cbn [ret]. rewrite !bind_eq. rewrite IH. reflexivity. }
    apply mapm_get in E1' as ((r1 & ->) & F1). rewrite bind_eq in E.
    destruct (mapm _ fns (set_reads r1 v)) as [[ls'|e] v2] eqn:E2; [|discriminate E]. injection E as <- <-. apply IH in E2 as ((r2 & ->) & K & V); [|intros j Hj; apply HF; right; exact Hj].
    assert (KB : dkeys bs = map (fun k => fn ++ u "." ++ k) (map (replace_char SLASH 58) (all_keys f))).
    { clear - F1. induction F1 as [|k b ks bs (x & _ & ->) F1 IH]; [reflexivity|]. cbn [dkeys map fst]. f_equal. exact IH. }
    split; [exists r2; destruct v; reflexivity|]. split.
    + intros k. cbn [List.concat]. assert (DA : forall (d1 d2 : dict pyval), dkeys (d1 ++ d2) = dkeys d1 ++ dkeys d2) by (intros; apply map_app). rewrite DA, in_app_iff, KB, (all_keys_file fn f k (gd_parts _ G _ _ IF)), K. split.
      * intros [I|(fn' & f' & A & B & C)]; [exists fn, f|exists fn', f']; intuition.
      * intros (fn' & f' & [<-|A] & B & C); [left; rewrite EF in B; injection B as <-; exact C|right; eauto].
    + intros k x I. cbn [List.concat] in I. apply in_app_or in I as [I|I].
      * clear - F1 I. induction F1 as [|k0 b ks bs (y & FY & ->) F1 IH]; [destruct I|]. destruct I as [E|I]; [injection E as <- <-; exact FY|exact (IH I)].
      * apply V in I. rewrite find_set_reads in I. exact I.
Qed.
Lemma dget_dupdate_gen {V} (e d : dict V) k x : dget k (dupdate d e) = Some x -> In (k, x) e \/ dget k d = Some x.
Proof.
  revert d. induction e as [|[j y] e IH]; intros d; [auto|]. change (dupdate d ((j, y) :: e)) with (dupdate (dset j y d) e). intros H. apply IH in H as [H|H]; [left; right; exact H|].
  rewrite dget_dset in H. destruct (str_eqb_spec k j) as [->|]; [injection H as <-; left; left; reflexivity|right; exact H].
Qed.
Lemma dget_dupdate_key {V} (e : dict V) k : forall d, (In k (dkeys e) \/ In k (dkeys d)) -> exists x, dget k (dupdate d e) = Some x.
Proof.
  induction e as [|[j y] e IH]; intros d [H|H]; [destruct H| |..].
  - cbn. destruct (dget k d) eqn:E; [eauto|]. apply dget_None in E. contradiction.
  - change (dupdate d ((j, y) :: e)) with (dupdate (dset j y d) e). apply IH. destruct H as [<-|H]; [right; apply In_dkeys_dset; auto|left; exact H].
  - change (dupdate d ((j, y) :: e)) with (dupdate (dset j y d) e). apply IH. right. apply In_dkeys_dset. auto.
Qed.
Lemma dump_spec v l v' : stored (dv_disk v) -> get_all_contract_state v = (Ok l, v') ->
  (exists r, v' = set_reads r v) /\ (forall k x, dget k l = Some x -> fst (get k v) = Ok x) /\
  forall k, In k (dkeys l) <-> exists fn f p a, dget fn (dv_disk v) = Some f /\ startswith fn (u "__") = false /\ In (p, a) f /\ p <> [] /\ k = wkey fn p.
Proof.
  intros S E. apply stored_good in S. unfold get_all_contract_state in E. rewrite bind_eq in E. cbn [gets] in E. rewrite bind_eq in E.
  destruct (mapm _ (get_contract_files v) v) as [[ls|e] v1] eqn:EM; [|discriminate E]. injection E as <- <-.
  apply dump_files in EM as ((r & ->) & K & V); [|exact S|intros fn I; unfold get_contract_files in I; rewrite In_str_sort in I; apply filter_In in I; apply I].
  split; [eauto|]. split.
  - intros k x D. apply dget_dupdate_gen in D as [D|D]; [|discriminate D]. rewrite get_result. exact (V k x D).
  - intros k. split.
    + intros I. destruct (dget k (dupdate [] (List.concat ls))) as [x|] eqn:D; [|apply dget_None in D; contradiction]. apply dget_dupdate_gen in D as [D|D]; [|discriminate D].
      assert (I' : In k (dkeys (List.concat ls))) by (apply (in_map fst) in D; exact D). apply K in I' as (fn & f & A & B & C). unfold get_contract_files in A. rewrite In_str_sort in A. apply filter_In in A as [_ A]. apply Bool.negb_true_iff in A.
      unfold file_keys in C. apply in_flat_map in C as ([p a] & C1 & C2). cbn [fst] in C2. destruct p as [|n p]; [destruct C2|]. destruct C2 as [<-|[]]. exists fn, f, (n :: p), a. repeat split; auto; discriminate.
    + intros (fn & f & p & a & A & B & C & D & ->). destruct (dget_dupdate_key (List.concat ls) (wkey fn p) []) as (x & X).
      * left. apply K. exists fn, f. split; [|split; [exact A|]].
        -- unfold get_contract_files. rewrite In_str_sort. apply filter_In. split; [apply dget_In in A; apply (in_map fst) in A; exact A|rewrite B; reflexivity].
        -- unfold file_keys. apply in_flat_map. exists (p, a). split; [exact C|]. cbn [fst]. destruct p; [congruence|left; reflexivity].
      * apply dget_In in X. apply (in_map fst) in X. exact X.
Qed.
(** what is committed has a group *)
Lemma committed_group d k x : good_disk d -> committed d k x -> exists f a, dget (fst (place_of k)) d = Some f /\ In (snd (place_of k), a) f.
Proof.
  intros G (KO & FR & NN). rewrite fresh_read_attrs in FR by exact KO. unfold dattrs, open_r in FR. destruct (name_ok (fst (place_of k))); [|cbn in FR; congruence]. destruct (dget (fst (place_of k)) d) as [f|]; [|cbn in FR; congruence].
  unfold attrs_at in FR. destruct (fget (snd (place_of k)) f) as [a|] eqn:E; [|cbn in FR; congruence]. exists f, a. split; [reflexivity|]. apply fget_In, E.
Qed.
(** C89.  The dump of a new driver: what it shows is committed, and every committed entry (but those in the root group of a
    file) is shown, under its own key if that is made as usual, under another key of the same place otherwise.
    Missing: the other keys that are listed (with None), entries in the root group, and drivers with pending writes or a
    filled cache: below. *)
Theorem C89_dump_partial d l v' : stored d -> get_all_contract_state (driver0 false d) = (Ok l, v') ->
  (forall k x, dget k l = Some x -> x <> VNone -> committed d k x /\ of_run_state k = false) /\
  (forall k x, committed d k x -> of_run_state k = false -> below_root k -> exists k', same_place k k' = true /\ dget k' l = Some x) /\
  (forall k c n args x, regular k c n args -> committed d k x -> of_run_state k = false -> dget k l = Some x).
Proof.
  intros S E. pose proof (stored_good d S) as G. apply dump_spec in E as (_ & V & K); [|exact S]. cbn [driver0 dv_disk] in K.
  assert (KEY : forall fn f p a, dget fn d = Some f -> In (p, a) f -> p <> [] -> place_of (wkey fn p) = (fn, p) /\ key_ok (wkey fn p)).
  { intros fn f p a A C N. pose proof (dget_In _ _ _ A) as IF. destruct (gd_names _ G _ _ IF) as (_ & H1 & H2). assert (H3 : forall n, In n p -> part n) by (intros n In_; exact (gd_parts _ G _ _ IF _ _ n C In_)).
    split; [apply place_parts|apply key_ok_parts]; assumption. }
  assert (SH : forall k x, committed d k x -> of_run_state k = false -> below_root k -> dget (wkey (fst (place_of k)) (snd (place_of k))) l = Some x /\ place_of (wkey (fst (place_of k)) (snd (place_of k))) = place_of k).
  { intros k x C R B. destruct (committed_group d k x G C) as (f & a & A & I). destruct (KEY _ _ _ _ A I B) as [PL KO].
    assert (IK : In (wkey (fst (place_of k)) (snd (place_of k))) (dkeys l)) by (apply K; exists (fst (place_of k)), f, (snd (place_of k)), a; auto).
    destruct (dget (wkey (fst (place_of k)) (snd (place_of k))) l) as [y|] eqn:D; [|apply dget_None in D; contradiction]. split; [|rewrite PL; destruct (place_of k); reflexivity].
    apply V in D. fold (fresh_read d (wkey (fst (place_of k)) (snd (place_of k)))) in D. destruct C as (KO' & FR & _). rewrite fresh_read_attrs in D by exact KO. rewrite fresh_read_attrs in FR by exact KO'.
    rewrite PL in D. replace (fst (place_of k), snd (place_of k)) with (place_of k) in D by (destruct (place_of k); reflexivity). rewrite FR in D. injection D as <-. reflexivity. }
  split; [|split].
  - intros k x D N. pose proof (V k x D) as FR. assert (IK : In k (dkeys l)) by (apply dget_In in D; apply (in_map fst) in D; exact D). apply K in IK as (fn & f & p & a & A & B & C & P & ->).
    destruct (KEY _ _ _ _ A C P) as [PL KO]. split; [split; [exact KO|split; [exact FR|exact N]]|]. unfold of_run_state. rewrite PL. exact B.
  - intros k x C R B. destruct (SH k x C R B) as [D PL]. exists (wkey (fst (place_of k)) (snd (place_of k))). split; [|exact D]. rewrite same_place_eqb, PL. apply place_eqb_refl.
  - intros k c n args x RG C R. destruct (regular_wkey k c n args RG) as (EK & PL & KO). assert (B : below_root k) by (unfold below_root; rewrite PL; discriminate). destruct (SH k x C R B) as [D _]. rewrite PL in D. cbn [fst snd] in D. rewrite <- EK in D. exact D.
Qed.
(** With pending writes and a cache: the keys on disk, each with what get gives; nothing but the record of reads changes. *)
Theorem C89_current_partial v l v' : stored (dv_disk v) -> get_all_contract_state v = (Ok l, v') ->
  (forall k x, dget k l = Some x -> fst (get k v) = Ok x) /\ dv_writes v' = dv_writes v /\ dv_cache v' = dv_cache v /\ dv_disk v' = dv_disk v.
Proof. intros S E. apply dump_spec in E as ((r & ->) & V & _); [|exact S]. auto. Qed.
(** *** Examples and what is wrong *)
Definition put (k : string) (x : pyval) (d : disk) : disk := snd (set_value_to_disk (fst (parse_key (u k))) (snd (parse_key (u k))) x None d).
Definition del (k : string) (d : disk) : disk := snd (h5_delete (fst (parse_key (u k))) (snd (parse_key (u k))) d).
Definition dumped (v : driver) : dict pyval := match fst (get_all_contract_state v) with Ok l => l | Err _ => [] end.
Definition after_dump (v : driver) : driver := snd (get_all_contract_state v).
(** con_a.v = 1, con_a.h:x:y = 2, __n.v = 3, __n.h:x = 4, con_a.old deleted, and an entry of a hash with an empty name under an empty key *)
Definition small : disk := put "con_a.:" (VInt 7) (del "con_a.old" (put "con_a.old" (VInt 5) (put "__n.h:x" (VInt 4) (put "__n.v" (VInt 3) (put "con_a.h:x:y" (VInt 2) (put "con_a.v" (VInt 1) [])))))).
Lemma small_stored : stored small.
Proof. unfold small. apply st_write, st_delete, st_write, st_write, st_write, st_write, st_write, st_empty. Qed.
Ltac no_chars := intros H; cbn in H; repeat (destruct H as [H|H]; [discriminate H|]); exact H.
Ltac is_part := split; [discriminate|split; [discriminate|split; no_chars]].
Example C89_small : stored small /\ get_all_contract_state (driver0 false small) = (Ok (dumped (driver0 false small)), after_dump (driver0 false small)) /\
  regular (u "con_a.h:x:y") (u "con_a") (u "h") [u "x"; u "y"] /\ committed small (u "con_a.h:x:y") (VInt 2) /\ of_run_state (u "con_a.h:x:y") = false /\ dget (u "con_a.h:x:y") (dumped (driver0 false small)) = Some (VInt 2).
Proof.
  split; [exact small_stored|]. split; [vm_compute; reflexivity|]. split; [split; [reflexivity|split; [no_chars|split; [no_chars|split; [is_part|intros a [<-|[<-|[]]]; is_part]]]]|].
  split; [split; [vm_compute; discriminate|split; [vm_compute; reflexivity|discriminate]]|]. split; vm_compute; reflexivity.
Qed.
(** listed although nothing is stored there: a deleted entry, and the hash itself; not listed although it is stored: an entry of the root group *)
Lemma none_same k l : forallb (fun j => negb (same_place k j)) l = true -> forall j, In j l -> same_place k j = false.
Proof. intros H j I. rewrite forallb_forall in H. apply H in I. apply Bool.negb_true_iff, I. Qed.
Theorem C89_refuted : exists d l, stored d /\ fst (get_all_contract_state (driver0 false d)) = Ok l /\
  dget (u "con_a.old") l = Some VNone /\ dget (u "con_a.h") l = Some VNone /\
  committed d (u "con_a.:") (VInt 7) /\ forall k, In k (dkeys l) -> same_place (u "con_a.:") k = false.
Proof.
  exists small, (dumped (driver0 false small)). split; [exact small_stored|]. split; [vm_compute; reflexivity|]. split; [vm_compute; reflexivity|]. split; [vm_compute; reflexivity|].
  split; [split; [vm_compute; discriminate|split; [vm_compute; reflexivity|discriminate]]|]. apply none_same. vm_compute. reflexivity.
Qed.
(** with pending writes it is neither the committed state (con_a.v is 1) nor the current one (con_b.v is missing) *)
Definition busy : driver := set_writes [(u "con_a.v", VInt 8); (u "con_b.v", VInt 9)] (driver0 false small).
Theorem C89_pending_refuted : exists v l, stored (dv_disk v) /\ fst (get_all_contract_state v) = Ok l /\ committed (dv_disk v) (u "con_a.v") (VInt 1) /\ dget (u "con_a.v") l = Some (VInt 8) /\
  fst (get (u "con_b.v") v) = Ok (VInt 9) /\ dget (u "con_b.v") l = None.
Proof.
  exists busy, (dumped busy). split; [exact small_stored|]. split; [vm_compute; reflexivity|]. split; [split; [vm_compute; discriminate|split; [vm_compute; reflexivity|discriminate]]|]. repeat split; vm_compute; reflexivity.
Qed.

(** ** C90 get_run_state *)
Lemma seqr_Forall2 {A B} (f : A -> result B) l bs : seqr f l = Ok bs -> Forall2 (fun a b => f a = Ok b) l bs.
Proof.
  revert bs. induction l as [|a l IH]; intros bs E; cbn [seqr] in E; [injection E as <-; constructor|]. destruct (f a) as [b|] eqn:F; [|discriminate E]. cbn [bindr] in E. destruct (seqr f l) as [bs'|]; [|discriminate E]. injection E as <-. constructor; auto.
Qed.
Lemma Forall2_in_l {A B} (R : A -> B -> Prop) l l' a : Forall2 R l l' -> In a l -> exists b, In b l' /\ R a b.
Proof. induction 1 as [|x y l l' H F IH]; intros I; [destruct I|]. destruct I as [->|I]; [exists y; split; [left; reflexivity|exact H]|]. destruct (IH I) as (b & I' & R'). exists b. split; [right; exact I'|exact R']. Qed.
Lemma Forall2_in_r {A B} (R : A -> B -> Prop) l l' b : Forall2 R l l' -> In b l' -> exists a, In a l /\ R a b.
Proof. induction 1 as [|x y l l' H F IH]; intros I; [destruct I|]. destruct I as [->|I]; [exists x; split; [left; reflexivity|exact H]|]. destruct (IH I) as (a & I' & R'). exists a. split; [right; exact I'|exact R']. Qed.
Lemma top_In n f : In n (top_names f) <-> exists a, In ([n], a) f.
Proof.
  unfold top_names. rewrite in_flat_map. split.
  - intros ([p a] & I & J). cbn [fst] in J. destruct p as [|m [|m' p]]; cbn in J; [destruct J|destruct J as [->|[]]; eauto|destruct J].
  - intros (a & I). exists ([n], a). split; [exact I|left; reflexivity].
Qed.
Lemma value_of_part d fn n : ~ In (ch ".") fn -> ~ In (ch ":") fn -> part n -> get_value_from_disk d fn n = fresh_read d (wkey fn [n]) /\ place_of (wkey fn [n]) = (fn, [n]) /\ key_ok (wkey fn [n]).
Proof.
  intros H1 H2 H3. assert (HP : forall m, In m [n] -> part m) by (intros m [<-|[]]; exact H3). split; [|split; [apply place_parts|apply key_ok_parts]; auto; discriminate].
  rewrite fresh_read_value. unfold value_from_disk. rewrite parse_wkey; [reflexivity|exact H1|exact H2|intros m Hm; apply (HP m Hm)].
Qed.
Theorem C90_dump_partial v l : stored (dv_disk v) -> get_run_state true v = Ok l ->
  (forall k x, dget k l = Some x -> x <> VNone -> committed (dv_disk v) k x /\ of_run_state k = true) /\
  (forall k fn n x, committed (dv_disk v) k x -> of_run_state k = true -> place_of k = (fn, [n]) -> exists k', same_place k k' = true /\ dget k' l = Some x).
Proof.
  intros S E. pose proof (stored_good _ S) as G. unfold get_run_state in E. destruct (seqr _ _) as [ls|] eqn:EL; [|discriminate E]. cbn [bindr] in E. injection E as <-. apply seqr_Forall2 in EL.
  assert (ENT : forall k x, In (k, x) (List.concat ls) -> exists fn f n a, dget fn (dv_disk v) = Some f /\ startswith fn (u "__") = true /\ In ([n], a) f /\ k = wkey fn [n] /\ get_value_from_disk (dv_disk v) fn n = Ok x).
  { intros k x I. apply in_concat in I as (l0 & I0 & I). destruct (Forall2_in_r _ _ _ _ EL I0) as (fn & IF & E0). rewrite In_str_sort in IF. apply filter_In in IF as [IF SW]. apply seqr_Forall2 in E0.
    destruct (Forall2_in_r _ _ _ _ E0 I) as (n & IN & E1). cbn beta in E1. destruct (get_value_from_disk (dv_disk v) fn n) as [y|] eqn:EV; [|discriminate E1]. injection E1 as <- <-.
    unfold get_groups, open_r in IN. destruct (name_ok fn); [|destruct IN]. destruct (dget fn (dv_disk v)) as [f|] eqn:EF; [|destruct IN]. rewrite In_str_sort in IN. apply top_In in IN as (a & IN). exists fn, f, n, a. repeat split; auto. }
  split.
  - intros k x D N. apply dget_dupdate_gen in D as [D|D]; [|discriminate D]. destruct (ENT k x D) as (fn & f & n & a & A & B & C & -> & EV). pose proof (dget_In _ _ _ A) as IF. destruct (gd_names _ G _ _ IF) as (_ & H1 & H2).
    assert (H3 : part n) by (exact (gd_parts _ G _ _ IF _ _ n C (or_introl eq_refl))). destruct (value_of_part (dv_disk v) fn n H1 H2 H3) as (EQ & PL & KO). rewrite EQ in EV.
    split; [split; [exact KO|split; assumption]|]. unfold of_run_state. rewrite PL. exact B.
  - intros k fn n x C R PL. destruct (committed_group _ k x G C) as (f & a & A & I). rewrite PL in A, I. cbn [fst snd] in A, I. unfold of_run_state in R. rewrite PL in R. cbn [fst] in R.
    pose proof (dget_In _ _ _ A) as IF. destruct (gd_names _ G _ _ IF) as (NO & H1 & H2). assert (H3 : part n) by (exact (gd_parts _ G _ _ IF _ _ n I (or_introl eq_refl))).
    destruct (value_of_part (dv_disk v) fn n H1 H2 H3) as (EQ & PL' & KO). exists (wkey fn [n]). split; [rewrite same_place_eqb, PL, PL'; apply place_eqb_refl|].
    assert (IK : In (wkey fn [n]) (dkeys (List.concat ls))).
    { assert (J : In fn (str_sort (filter (fun fn => startswith fn (u "__")) (dkeys (dv_disk v))))) by (rewrite In_str_sort; apply filter_In; split; [apply (in_map fst) in IF; exact IF|exact R]).
      destruct (Forall2_in_l _ _ _ _ EL J) as (l0 & I0 & E0). apply seqr_Forall2 in E0. assert (J' : In n (get_groups (dv_disk v) fn)) by (unfold get_groups, open_r; rewrite NO, A, In_str_sort; apply top_In; eauto).
      destruct (Forall2_in_l _ _ _ _ E0 J') as ([k0 y] & I1 & E1). cbn beta in E1. destruct (get_value_from_disk (dv_disk v) fn n) as [z|]; [|discriminate E1]. injection E1 as <- <-. unfold dkeys. apply in_map_iff. exists (wkey fn [n], z). split; [reflexivity|].
      apply in_concat. exists l0. auto. }
    destruct (dget_dupdate_key (List.concat ls) (wkey fn [n]) [] (or_introl IK)) as (y & D). rewrite D. f_equal. apply dget_dupdate_gen in D as [D|D]; [|discriminate D]. destruct (ENT _ _ D) as (fn' & f' & n' & a' & A' & B' & C' & EK & EV).
    pose proof (dget_In _ _ _ A') as IF'. destruct (gd_names _ G _ _ IF') as (_ & H1' & H2'). assert (H3' : part n') by (exact (gd_parts _ G _ _ IF' _ _ n' C' (or_introl eq_refl))).
    apply wkey_inj in EK; try assumption; try discriminate; [|intros m [<-|[]]; assumption..]. destruct EK as [<- EK]. injection EK as <-. rewrite EQ in EV. destruct C as (KO' & FR & _). rewrite fresh_read_attrs in EV by exact KO. rewrite fresh_read_attrs in FR by exact KO'. rewrite PL' in EV. rewrite PL in FR. pose proof (eq_trans (eq_sym EV) FR) as Q. injection Q as ->. reflexivity.
Qed.
Definition run_dumped (v : driver) : dict pyval := match get_run_state true v with Ok l => l | Err _ => [] end.
Example C90_small : stored small /\ get_run_state true (driver0 false small) = Ok (run_dumped (driver0 false small)) /\ committed small (u "__n.v") (VInt 3) /\ of_run_state (u "__n.v") = true /\ place_of (u "__n.v") = (u "__n", [u "v"]) /\
  dget (u "__n.v") (run_dumped (driver0 false small)) = Some (VInt 3).
Proof. split; [exact small_stored|]. split; [vm_compute; reflexivity|]. split; [split; [vm_compute; discriminate|split; [vm_compute; reflexivity|discriminate]]|]. repeat split; vm_compute; reflexivity. Qed.
(** entries of hashes are missing *)
Theorem C90_refuted : exists v l, stored (dv_disk v) /\ get_run_state true v = Ok l /\ committed (dv_disk v) (u "__n.h:x") (VInt 4) /\ forall k, In k (dkeys l) -> same_place (u "__n.h:x") k = false.
Proof.
  exists (driver0 false small), (run_dumped (driver0 false small)). split; [exact small_stored|]. split; [vm_compute; reflexivity|]. split; [split; [vm_compute; discriminate|split; [vm_compute; reflexivity|discriminate]]|].
  apply none_same. vm_compute. reflexivity.
Qed.
(** ...and with a relative storage_home everything is *)
Theorem C90_relative_refuted v : get_run_state false v = Ok [].
Proof.
  unfold get_run_state. assert (H : forall l, seqr (fun fn => seqr (fun k => do x <- get_value_from_disk (dv_disk v) fn k; Ok (fn ++ u "." ++ k, x)) []) l = Ok (map (fun _ => []) l)).
  { induction l as [|a l IH]; [reflexivity|]. cbn [seqr bindr map] in *. rewrite IH. reflexivity. }
  rewrite H. cbn [bindr]. f_equal. induction (str_sort _) as [|a l IH]; [reflexivity|exact IH].
Qed.

(** ** C91 keys_from_disk *)
Definition not_after (a b : pystr) : Prop := str_ltb b a = false.
Lemma not_after_trans a b c : not_after a b -> not_after b c -> not_after a c.
Proof.
  unfold not_after. revert b c. induction a as [|x a IH]; intros b c H1 H2; [destruct c; reflexivity|]. destruct b as [|y b]; [discriminate H1|]. destruct c as [|z c]; [discriminate H2|]. cbn [str_ltb] in *.
  destruct (N.ltb_spec y x) as [|L1]; [discriminate|]. destruct (N.ltb_spec z y) as [|L2]; [discriminate|]. destruct (N.ltb_spec z x) as [|L3]; [lia|].
  destruct (N.eqb_spec z x) as [E|]; [|reflexivity]. assert (E1 : y = x) by lia. assert (E2 : z = y) by lia. rewrite (proj2 (N.eqb_eq _ _) E1) in H1. rewrite (proj2 (N.eqb_eq _ _) E2) in H2. eauto.
Qed.
Lemma ltb_not_after a b : str_ltb a b = true -> not_after a b.
Proof.
  unfold not_after. revert b. induction a as [|x a IH]; intros [|y b]; try discriminate; [reflexivity|]. cbn [str_ltb]. destruct (N.ltb_spec x y).
  - intros _. destruct (N.ltb_spec y x); [lia|]. destruct (N.eqb_spec y x); [lia|reflexivity].
  - destruct (N.eqb_spec x y) as [->|]; [|discriminate]. rewrite N.ltb_irrefl, N.eqb_refl. apply IH.
Qed.
Lemma insert_sorted x l : StronglySorted not_after l -> StronglySorted not_after (str_insert x l).
Proof.
  intros H. induction H as [|y l H IH F]; [repeat constructor|]. cbn [str_insert]. destruct (str_ltb y x) eqn:E.
  - constructor; [exact IH|]. rewrite Forall_forall in *. intros z I. apply In_str_insert in I as [->|I]; [apply ltb_not_after, E|exact (F z I)].
  - constructor; [constructor; assumption|]. constructor; [exact E|]. eapply Forall_impl; [|exact F]. intros z Z. exact (not_after_trans x y z E Z).
Qed.
Lemma sort_sorted l : StronglySorted not_after (str_sort l).
Proof. induction l as [|x l IH]; [constructor|]. apply insert_sorted, IH. Qed.
Lemma sort_length l : List.length (str_sort l) = List.length l.
Proof.
  assert (H : forall x l, List.length (str_insert x l) = S (List.length l)). { intros x l'. induction l' as [|y l' IH]; [reflexivity|]. cbn [str_insert]. destruct (str_ltb y x); cbn [List.length]; [rewrite IH|]; reflexivity. }
  induction l as [|x l IH]; [reflexivity|]. cbn [str_sort fold_right]. rewrite H. fold (str_sort l). rewrite IH. reflexivity.
Qed.
Lemma insert_nodup x l : NoDup l -> ~ In x l -> NoDup (str_insert x l).
Proof.
  induction l as [|y l IH]; intros H N; [constructor; [exact N|constructor]|]. cbn [str_insert]. inversion H as [|? ? H1 H2]; subst. destruct (str_ltb y x); [|constructor; assumption].
  constructor; [|apply IH; [exact H2|intros I; apply N; right; exact I]]. rewrite In_str_insert. intros [->|I]; [apply N; left; reflexivity|exact (H1 I)].
Qed.
Lemma sort_nodup l : NoDup l -> NoDup (str_sort l).
Proof. induction 1 as [|x l N H IH]; [constructor|]. apply insert_nodup; [exact IH|]. rewrite In_str_sort. exact N. Qed.
Lemma collect_spec p len l : forall acc, NoDup acc -> (len > 0 -> List.length acc < len) -> NoDup (collect p len l acc) /\ (len > 0 -> List.length (collect p len l acc) <= len) /\
  (forall k, In k (collect p len l acc) -> In k acc \/ (In k l /\ startswith k p = true)) /\ (len = 0 -> forall k, In k acc \/ (In k l /\ startswith k p = true) -> In k (collect p len l acc)) /\
  (List.length (collect p len l acc) < len -> forall k, In k acc \/ (In k l /\ startswith k p = true) -> In k (collect p len l acc)).
Proof.
  induction l as [|x l IH]; intros acc HN HL; cbn [collect].
  { split; [exact HN|]. split; [intros G; specialize (HL G); lia|]. split; [auto|]. split; [intros _ k [I|[[] _]]; exact I|intros _ k [I|[[] _]]; exact I]. }
  set (acc' := if (startswith x p && negb (str_mem x acc))%bool then x :: acc else acc).
  assert (HN' : NoDup acc'). { unfold acc'. destruct (startswith x p); [|exact HN]. cbn [andb]. destruct (str_mem x acc) eqn:M; [exact HN|]. constructor; [|exact HN]. intros I. apply str_mem_spec in I. congruence. }
  assert (HI : forall k, In k acc' <-> In k acc \/ (k = x /\ startswith x p = true)).
  { intros k. unfold acc'. destruct (startswith x p); cbn [andb]; [|intuition discriminate]. destruct (str_mem x acc) eqn:M; cbn [negb].
    - apply str_mem_spec in M. split; [auto|]. intros [I|[-> _]]; assumption.
    - cbn [In]. intuition congruence. }
  assert (LL : List.length acc' <= S (List.length acc)) by (unfold acc'; destruct (_ && _)%bool; cbn [List.length]; lia).
  assert (REC : (len > 0 -> List.length acc' < len) -> NoDup (collect p len l acc') /\ (len > 0 -> List.length (collect p len l acc') <= len) /\
    (forall k, In k (collect p len l acc') -> In k acc \/ (In k (x :: l) /\ startswith k p = true)) /\ (len = 0 -> forall k, In k acc \/ (In k (x :: l) /\ startswith k p = true) -> In k (collect p len l acc')) /\
    (List.length (collect p len l acc') < len -> forall k, In k acc \/ (In k (x :: l) /\ startswith k p = true) -> In k (collect p len l acc'))).
  { intros HL'. destruct (IH acc' HN' HL') as (A & B & C & D & F). split; [exact A|]. split; [exact B|]. split; [|split].
    - intros k I. destruct (C k I) as [J|[J S]]; [apply HI in J as [J|[-> S]]; [left; exact J|right; split; [left; reflexivity|exact S]]|right; split; [right; exact J|exact S]].
    - intros L k [I|[[<-|I] S]]; apply (D L); [left; apply HI; auto|left; apply HI; auto|right; auto].
    - intros L k [I|[[<-|I] S]]; apply (F L); [left; apply HI; auto|left; apply HI; auto|right; auto]. }
  destruct (Nat.ltb_spec 0 len) as [L0|L0]; cbn [andb]; [|apply REC; lia].
  destruct (Nat.leb_spec len (List.length acc')) as [L1|L1]; [|apply REC; auto].
  split; [exact HN'|]. split; [intros _; specialize (HL L0); lia|]. split; [|split; [lia|lia]].
  intros k I. apply HI in I as [I|[-> S]]; [left; exact I|right; split; [left; reflexivity|exact S]].
Qed.
(** what is listed are the names of variables and hashes, of all contracts *)
Definition top_name (d : disk) (n : pystr) : Prop := exists fn f a, dget fn d = Some f /\ In ([n], a) f.
Theorem C91_names_partial d prefix len : stored d ->
  StronglySorted not_after (keys_from_disk prefix len d) /\ NoDup (keys_from_disk prefix len d) /\ (len > 0 -> List.length (keys_from_disk prefix len d) <= len) /\
  (forall n, In n (keys_from_disk prefix len d) -> startswith n prefix = true /\ top_name d n) /\
  (len = 0 \/ List.length (keys_from_disk prefix len d) < len -> forall k c n args x, regular k c n args -> committed d k x -> startswith n prefix = true -> args = [] -> In n (keys_from_disk prefix len d)).
Proof.
  intros S. pose proof (stored_good _ S) as G. unfold keys_from_disk. set (l := flat_map (get_groups d) (str_sort (dkeys d))).
  destruct (collect_spec prefix len l [] (NoDup_nil _)) as (A & B & C & D & F); [cbn; lia|].
  assert (HL : forall n, In n l <-> exists fn f a, dget fn d = Some f /\ In ([n], a) f).
  { intros n. unfold l. rewrite in_flat_map. split.
    - intros (fn & IF & IN). unfold get_groups, open_r in IN. destruct (name_ok fn); [|destruct IN]. destruct (dget fn d) as [f|] eqn:EF; [|destruct IN]. rewrite In_str_sort in IN. apply top_In in IN as (a & IN). eauto 6.
    - intros (fn & f & a & EF & IN). exists fn. pose proof (dget_In _ _ _ EF) as IF. split; [rewrite In_str_sort; apply (in_map fst) in IF; exact IF|]. unfold get_groups, open_r. rewrite (proj1 (gd_names _ G _ _ IF)), EF, In_str_sort. apply top_In. eauto. }
  split; [apply sort_sorted|]. split; [apply sort_nodup, A|]. split; [rewrite sort_length; exact B|]. split.
  - intros n I. rewrite In_str_sort in I. destruct (C n I) as [[]|[J SW]]. split; [exact SW|]. apply HL, J.
  - intros HLen k c n args x RG CM SW ->. rewrite In_str_sort. destruct (regular_wkey k c n [] RG) as (_ & PL & _). destruct (committed_group d k x G CM) as (f & a & EF & IN). rewrite PL in EF, IN. cbn [fst snd] in EF, IN.
    assert (J : In n l) by (apply HL; eauto). destruct HLen as [L|L]; [apply (D L); auto|]. rewrite sort_length in L. apply (F L); auto.
Qed.
Example C91_small : stored small /\ keys_from_disk (u "v") 0 small = [u "v"] /\ keys_from_disk [] 0 small = [u "h"; u "old"; u "v"] /\ regular (u "con_a.v") (u "con_a") (u "v") [] /\ committed small (u "con_a.v") (VInt 1).
Proof.
  split; [exact small_stored|]. split; [vm_compute; reflexivity|]. split; [vm_compute; reflexivity|]. split; [split; [reflexivity|split; [no_chars|split; [no_chars|split; [is_part|intros a []]]]]|].
  split; [vm_compute; discriminate|split; [vm_compute; reflexivity|discriminate]].
Qed.
(** no stored key is ever listed under its prefix: keys contain a dot after the contract *)
Theorem C91_refuted : exists d k x, stored d /\ committed d k x /\ regular k (u "con_a") (u "v") [] /\ ~ In k (keys_from_disk [] 0 d) /\ keys_from_disk (u "con_a") 0 d = [].
Proof.
  exists small, (u "con_a.v"), (VInt 1). destruct C91_small as (A & _ & B & C & D). repeat (split; [assumption|]). split; [rewrite B; intros I; cbn in I; intuition discriminate|vm_compute; reflexivity].
Qed.
