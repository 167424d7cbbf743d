(** * Facts about the ORM model *)
From Verif Require Import Model.Base Model.State Model.Dec Model.Value Model.Encoder Model.Hdf5 Model.Runtime Model.Driver Model.Orm.
From Verif Require Import Spec.DecSpec Spec.EncSpec Spec.DriverSpec Spec.OrmSpec.
From Verif Require Import Proofs.BaseFacts Proofs.DecFacts Proofs.DecOps Proofs.DecText Proofs.DiskFacts Proofs.DriverFacts Proofs.ReachFacts.
From Coq Require Import Lia.

(** ** Validation of keys *)
Lemma assertr_ok b u : assertr b = Ok u <-> b = true.
Proof. destruct b, u; cbn; split; congruence. Qed.
Lemma check_part_ok s u : check_part s = Ok u <-> ~ In (ch ":") s /\ ~ In (ch ".") s.
Proof.
  destruct u. unfold check_part. change (ch ":") with DELIM. change (ch ".") with DOT.
  rewrite <- (has_char_false DELIM), <- (has_char_false DOT).
  destruct (has_char DELIM s), (has_char DOT s); cbn; intuition congruence.
Qed.
Definition no_slice (l : list hpart) : Prop := forall t, ~ In (PSlice t) l.
Definition glue (ts : list pystr) : pystr := flat_map (fun s => s ++ [DELIM]) ts.
Lemma tuple_text_ok ostr l : forall acc t, tuple_text ostr l acc = Ok t <->
  exists ts, texts ostr l ts /\ no_slice l /\ (forall s, In s ts -> ~ In (ch ":") s /\ ~ In (ch ".") s) /\ t = acc ++ glue ts.
Proof.
  induction l as [|p l IH]; intros acc t; cbn [tuple_text].
  - split.
    + intros H. injection H as <-. exists []. split; [constructor|]. split; [intros ? []|]. split; [intros ? []|]. symmetry. apply app_nil_r.
    + intros (ts & H1 & _ & _ & ->). inversion H1; subst. cbn. rewrite app_nil_r. reflexivity.
  - split.
    + intros H. destruct p as [v|s0]; [|discriminate]. cbn [assertr bindr] in H.
      destruct (part_str ostr (PVal v)) as [s|e] eqn:Es; [|discriminate]. cbn [bindr] in H.
      destruct (check_part s) as [u0|e] eqn:Ec; [|discriminate]. cbn [bindr] in H.
      apply IH in H as (ts & H1 & H2 & H3 & ->). exists (s :: ts).
      split; [constructor; assumption|]. split; [intros t [E|Hi]; [discriminate|exact (H2 t Hi)]|].
      split; [intros x [<-|Hi]; [eapply check_part_ok; exact Ec|exact (H3 x Hi)]|].
      cbn [glue flat_map]. rewrite <- !app_assoc. reflexivity.
    + intros (ts & H1 & H2 & H3 & ->). inversion H1 as [|? s ? ts' Hs Ht]; subst.
      destruct p as [v|s0]; [|exfalso; apply (H2 s0); left; reflexivity]. cbn [assertr bindr]. rewrite Hs. cbn [bindr].
      assert (check_part s = Ok tt) as -> by (apply check_part_ok, H3; left; reflexivity). cbn [bindr].
      apply IH. exists ts'. split; [exact Ht|]. split; [intros t Hi; apply (H2 t); right; exact Hi|].
      split; [intros x Hi; apply H3; right; exact Hi|]. cbn [glue flat_map]. rewrite <- !app_assoc. reflexivity.
Qed.
Lemma glue_join ts : removelast (glue ts) = join (u ":") ts.
Proof.
  induction ts as [|s ts IH]; [reflexivity|]. cbn [glue flat_map]. fold (glue ts). destruct ts as [|s' ts].
  - cbn. rewrite app_nil_r. apply removelast_last.
  - cbn [join]. rewrite removelast_app.
    + rewrite IH. rewrite <- app_assoc. reflexivity.
    + cbn [glue flat_map]. intros H. destruct s'; discriminate.
Qed.
Lemma Forall2_len {A B} (R : A -> B -> Prop) l m : Forall2 R l m -> List.length l = List.length m.
Proof. induction 1; cbn; congruence. Qed.
Lemma validate_spec ostr k s : validate_key ostr k = Ok s <-> exists ts, valid_key ostr k ts /\ s = join (u ":") ts.
Proof.
  unfold validate_key. split.
  - destruct k as [p|l].
    + intros H. destruct (part_str ostr p) as [t|e] eqn:Ep; [|discriminate]. cbn [bindr] in H.
      destruct (check_part t) as [u0|] eqn:Ec; [|discriminate]. cbn [bindr] in H.
      destruct (Nat.leb_spec (List.length t) MAX_KEY) as [Hl|]; [|discriminate]. cbn [assertr bindr] in H. injection H as <-.
      exists [t]. split; [|reflexivity]. split.
      * constructor; [exact Ep|constructor].
      * cbn; lia.
      * intros x [<-|[]]. eapply check_part_ok; exact Ec.
      * exact Hl.
      * intros ? ? E; discriminate.
    + intros H. destruct (Nat.leb_spec (List.length l) MAX_DIM) as [Hd|]; [|discriminate]. cbn [assertr bindr] in H.
      destruct (tuple_text ostr l []) as [t|e] eqn:Et; [|discriminate]. cbn [bindr] in H.
      apply tuple_text_ok in Et as (ts & H1 & H2 & H3 & ->). cbn [app] in H. rewrite glue_join in H.
      destruct (Nat.leb_spec (List.length (join (u ":") ts)) MAX_KEY) as [Hl|]; [|discriminate]. cbn [assertr bindr] in H. injection H as <-.
      exists ts. split; [|reflexivity]. split; auto.
      * rewrite <- (Forall2_len _ _ _ H1). exact Hd.
      * intros l' t E. injection E as <-. apply H2.
  - intros (ts & [H1 H2 H3 H4 H5] & ->). destruct k as [p|l]; cbn [key_parts] in H1.
    + inversion H1 as [|? t ? ? Hp Hn]; subst. inversion Hn; subst. rewrite Hp. cbn [bindr].
      assert (check_part t = Ok tt) as -> by (apply check_part_ok, H3; left; reflexivity). cbn [bindr join] in *.
      assert (Nat.leb (List.length t) MAX_KEY = true) as -> by (apply Nat.leb_le; exact H4). reflexivity.
    + assert (Nat.leb (List.length l) MAX_DIM = true) as -> by (apply Nat.leb_le; rewrite (Forall2_len _ _ _ H1); exact H2).
      cbn [assertr bindr].
      assert (tuple_text ostr l [] = Ok (glue ts)) as ->.
      { apply tuple_text_ok. exists ts. split; [exact H1|]. split; [intros t; exact (H5 l t eq_refl)|]. split; [exact H3|reflexivity]. }
      cbn [bindr]. rewrite glue_join.
      assert (Nat.leb (List.length (join (u ":") ts)) MAX_KEY = true) as -> by (apply Nat.leb_le; exact H4). reflexivity.
Qed.
Lemma join_inj c ts ts' : ts <> [] -> ts' <> [] -> (forall t, In t ts -> ~ In c t) -> (forall t, In t ts' -> ~ In c t) ->
  join [c] ts = join [c] ts' -> ts = ts'.
Proof. intros H1 H2 H3 H4 E. rewrite <- (split_all_join c ts), <- (split_all_join c ts'), E by assumption. reflexivity. Qed.

(** ** Keys *)
Lemma app_sep_inj (c : N) a b a' b' : ~ In c a -> ~ In c a' -> a ++ c :: b = a' ++ c :: b' -> a = a' /\ b = b'.
Proof.
  intros Ha Ha' E. assert (H : split1 c (a ++ c :: b) = split1 c (a' ++ c :: b')) by (rewrite E; reflexivity).
  rewrite !split1_app in H by assumption. injection H as -> ->. split; reflexivity.
Qed.
Lemma var_key_eq c n t d : v_key (var_decl c n t d) = c ++ ch "." :: n. Proof. reflexivity. Qed.
Lemma entry_key_eq c n d s : entry_key (hash_decl c n d) s = c ++ ch "." :: n ++ ch ":" :: s.
Proof. unfold entry_key, hash_decl, make_key; cbn [h_key]. rewrite <- !app_assoc. reflexivity. Qed.
Lemma entry_key_make c n d ts : ts <> [] -> entry_key (hash_decl c n d) (join (u ":") ts) = make_key c n ts.
Proof. intros H. rewrite entry_key_eq. unfold make_key. destruct ts as [|t ts]; [congruence|]. cbn [join]. rewrite <- !app_assoc. reflexivity. Qed.
Lemma var_key_inj c n c' n' : contract_name c -> contract_name c' -> c ++ ch "." :: n = c' ++ ch "." :: n' -> c = c' /\ n = n'.
Proof. intros H1 H2 E. apply app_sep_inj in E; assumption. Qed.
Lemma entry_key_inj c n s c' n' s' : contract_name c -> contract_name c' -> variable_name n -> variable_name n' ->
  c ++ ch "." :: n ++ ch ":" :: s = c' ++ ch "." :: n' ++ ch ":" :: s' -> c = c' /\ n = n' /\ s = s'.
Proof.
  intros H1 H2 H3 H4 E. apply app_sep_inj in E as [-> E]; [|assumption..]. apply app_sep_inj in E as [-> ->]; auto.
Qed.
Lemma var_entry_neq c n c' n' s : contract_name c -> contract_name c' -> variable_name n ->
  c ++ ch "." :: n <> c' ++ ch "." :: n' ++ ch ":" :: s.
Proof.
  intros H1 H2 H3 E. apply app_sep_inj in E as [-> E]; [|assumption..]. apply H3. rewrite E. apply in_or_app. right. left. reflexivity.
Qed.

(** ** Places *)
Lemma replace_join ps : (forall p, In p ps -> ~ In (ch ":") p) ->
  replace_char (ch ":") SLASH (join (u ":") ps) = join [SLASH] ps.
Proof.
  assert (HR : forall p, ~ In (ch ":") p -> replace_char (ch ":") SLASH p = p).
  { intros p. induction p as [|x p IH]; intros H; [reflexivity|]. cbn [replace_char map]. destruct (N.eqb_spec x (ch ":")) as [->|_]; [exfalso; apply H; left; reflexivity|].
    f_equal. apply IH. intros Hi. apply H. right. exact Hi. }
  intros H. induction ps as [|p ps IH]; [reflexivity|]. destruct ps as [|q ps].
  - cbn [join]. apply HR, H. left. reflexivity.
  - change (join (u ":") (p :: q :: ps)) with (p ++ u ":" ++ join (u ":") (q :: ps)). change (join [SLASH] (p :: q :: ps)) with (p ++ [SLASH] ++ join [SLASH] (q :: ps)).
    rewrite <- IH by (intros x Hx; apply H; right; exact Hx). unfold replace_char at 1. rewrite !map_app. fold (replace_char (ch ":") SLASH p).
    rewrite HR by (apply H; left; reflexivity). reflexivity.
Qed.
Definition wkey (c : pystr) (ns : list pystr) : pystr := c ++ ch "." :: join (u ":") ns.
Lemma parse_wkey c ns : contract_name c -> ~ In (ch ":") c -> (forall p, In p ns -> ~ In (ch ":") p) ->
  parse_key (wkey c ns) = (c, join [SLASH] ns).
Proof.
  intros H1 H2 H3. unfold parse_key, wkey. rewrite split1_app by exact H1. cbn [snd].
  assert (split1 (ch ":") c = None) as -> by (apply split1_None; exact H2). rewrite replace_join by exact H3. reflexivity.
Qed.
Lemma norm_plain ns : ns <> [] -> (forall p, In p ns -> plain_text p) -> norm (join [SLASH] ns) = ns.
Proof.
  intros H1 H2. unfold norm. rewrite split_all_join; [|exact H1|intros p Hp; apply (H2 p Hp)].
  induction ns as [|p ns IH]; [reflexivity|]. cbn [filter]. destruct (H2 p (or_introl eq_refl)) as (Hn & _ & Hd & _).
  assert (str_eqb p [] = false) as -> by (apply str_eqb_neq; exact Hn).
  assert (str_eqb p (u ".") = false) as -> by (apply str_eqb_neq; intros ->; apply Hd; left; reflexivity). cbn [negb andb].
  f_equal. destruct ns; [reflexivity|]. apply IH; [discriminate|]. intros q Hq. apply H2. right. exact Hq.
Qed.
Lemma place_wkey c ns : contract_name c -> ~ In (ch ":") c -> ns <> [] -> (forall p, In p ns -> plain_text p) -> place_of (wkey c ns) = (c, ns).
Proof.
  intros H1 H2 H3 H4. unfold place_of. rewrite parse_wkey; [|exact H1|exact H2|intros p Hp; apply (H4 p Hp)].
  rewrite norm_plain by assumption. reflexivity.
Qed.
Lemma make_key_wkey c n ts : make_key c n ts = wkey c (n :: ts).
Proof. unfold make_key, wkey. destruct ts as [|t ts]; [reflexivity|]. cbn [join]. rewrite <- !app_assoc. reflexivity. Qed.

(** ** Reads *)
Definition upd_reads (x : dict pyval) (w : world) : world := mkW (set_reads x (w_drv w)) (w_rt w).
Lemma same_reads_upd x w : same_reads w (upd_reads x w).
Proof. intros k. rewrite !get_result. cbn [upd_reads w_drv]. rewrite find_set_reads. reflexivity. Qed.
Lemma get_upd k w : exists x, on_drv (get k) w = (find k (w_drv w), upd_reads x w).
Proof.
  unfold on_drv. destruct (ro_get k (w_drv w)) as (x & Hx). exists x. pose proof (get_result k (w_drv w)) as HR.
  destruct (get k (w_drv w)) as [r v]. cbn [fst snd] in *. subst. reflexivity.
Qed.
Lemma upd_reads_same w : upd_reads (dv_reads (w_drv w)) w = w.
Proof. destruct w as [v r]. unfold upd_reads; cbn. rewrite set_reads_same. reflexivity. Qed.
Lemma same_reads_refl w : same_reads w w. Proof. intros k; reflexivity. Qed.
Definition norm_dec (v : pyval) : result pyval :=
  match v with
  | VFloat r => do d <- cd_of_str r; Ok (VDec d)
  | VDec d => do d <- cd_of_str (cd_str d); Ok (VDec d)
  | _ => Ok v
  end.
Definition or_default (d v : pyval) : pyval := if is_none v then d else v.
Lemma hash_get_eq ostr h k w s : validate_key ostr k = Ok s ->
  exists x, hash_get ostr h k w = ((do v <- find (entry_key h s) (w_drv w); norm_dec (or_default (h_default h) v)), upd_reads x w).
Proof.
  intros Hs. destruct (get_upd (entry_key h s) w) as (x & Hx). exists x.
  remember (hash_get ostr h k w) as R eqn:ER. unfold hash_get in ER. rewrite bind_eq, Hs in ER. cbn [lift] in ER. rewrite bind_eq, Hx in ER.
  destruct (find (entry_key h s) (w_drv w)) as [v|e]; [|exact ER]. cbn [bindr]. unfold or_default.
  destruct (if is_none v then h_default h else v) eqn:Ed; cbn [norm_dec]; try exact ER; rewrite bind_eq in ER; cbn [lift] in ER;
    match type of ER with context [cd_of_str ?z] => destruct (cd_of_str z) end; cbn [bindr]; exact ER.
Qed.
Lemma hash_get_err ostr h k w e : validate_key ostr k = Err e -> hash_get ostr h k w = (Err e, w).
Proof. intros H. unfold hash_get. rewrite bind_eq, H. reflexivity. Qed.
Lemma var_get_eq x w : exists r, var_get x w = ((do v <- find (v_key x) (w_drv w); Ok (or_default (v_default x) v)), upd_reads r w).
Proof.
  destruct (get_upd (v_key x) w) as (r & Hr). exists r. unfold var_get. rewrite bind_eq, Hr.
  destruct (find (v_key x) (w_drv w)); reflexivity.
Qed.
Lemma norm_dec_same v : v <> VNone -> storable v -> (forall r, v <> VFloat r) -> exists v', norm_dec v = Ok v' /\ same v v'.
Proof.
  intros Hn Hs Hf. destruct v; try (eexists; split; [reflexivity|apply same_refl]).
  - exfalso. exact (Hf repr eq_refl).
  - cbn [storable] in Hs. destruct (cdwf_units _ (constructed_wf _ Hs)) as (n & Hd).
    destruct (cd_of_str_round_trip true d n (constructed_wf _ Hs) Hd) as (d' & E & U & _).
    exists (VDec d'). split; [|exact (same_dec _ _ n Hd U)]. cbn [norm_dec]. unfold cd_str. rewrite E. reflexivity.
Qed.

(** ** Listing *)
Lemma In_str_insert x y l : In x (str_insert y l) <-> x = y \/ In x l.
Proof.
  induction l as [|z l IH]; cbn [str_insert].
  - cbn. intuition congruence.
  - destruct (str_ltb z y); cbn [In]; [rewrite IH|]; intuition congruence.
Qed.
Lemma In_str_sort x l : In x (str_sort l) <-> In x l.
Proof. induction l as [|y l IH]; [reflexivity|]. cbn [str_sort fold_right]. rewrite In_str_insert. fold (str_sort l). rewrite IH. cbn. intuition congruence. Qed.
Lemma startswith_char s p c : startswith s p = true -> In c p -> In c s.
Proof. intros H Hi. apply startswith_spec in H as (r & ->). apply in_or_app. left. exact Hi. Qed.
Lemma get_groups_no_colon d fn k : disk_no_colon d -> In k (get_groups d fn) -> ~ In (ch ":") k.
Proof.
  unfold get_groups, open_r. intros HD. destruct (name_ok fn); [|intros []]. destruct (dget fn d) as [f|] eqn:E; [|intros []].
  rewrite In_str_sort. unfold top_names. rewrite in_flat_map. intros ([p a] & Hi & Hk). apply dget_In in E. cbn [fst] in Hk.
  destruct p as [|n [|]]; try (destruct Hk). { subst. apply (HD _ _ E _ _ _ Hi). left. reflexivity. } destruct H.
Qed.
Lemma filter_none {A} (f : A -> bool) l : (forall x, In x l -> f x = false) -> filter f l = [].
Proof. induction l as [|x l IH]; intros H; [reflexivity|]. cbn. rewrite (H x (or_introl eq_refl)). apply IH. intros y Hy. apply H. right. exact Hy. Qed.
Lemma iter_from_disk_colon prefix d l : disk_no_colon d -> In (ch ":") prefix -> iter_from_disk prefix d = Ok l -> l = [].
Proof.
  intros HD HP H. unfold iter_from_disk in H. destruct (parse_key prefix) as [fn g]. destruct (is_file d fn) as [b|]; [|discriminate].
  cbn [bindr] in H. injection H as <-. destruct b; [|reflexivity].
  rewrite filter_none; [reflexivity|]. intros k Hk. destruct (startswith k prefix) eqn:E; [|reflexivity].
  exfalso. apply (get_groups_no_colon _ _ _ HD Hk). exact (startswith_char _ _ _ E HP).
Qed.
Definition listed (prefix : pystr) (v : driver) : dict pyval :=
  dupdate (dupdate [] (live prefix (dv_writes v))) (live prefix (dv_cache v)).
Lemma items_colon ord prefix v : (forall l, ord l = [] <-> l = []) -> disk_no_colon (dv_disk v) -> In (ch ":") prefix ->
  (exists e, iter_from_disk prefix (dv_disk v) = Err e /\ items ord prefix v = (Err e, v)) \/ items ord prefix v = (Ok (listed prefix v), v).
Proof.
  intros Ho HD HP. remember (items ord prefix v) as R eqn:ER. unfold items in ER. rewrite bind_eq in ER. cbn [gets] in ER. rewrite bind_eq in ER. cbn [lift] in ER.
  destruct (iter_from_disk prefix (dv_disk v)) as [l|e] eqn:EI; [|left; eauto].
  right. apply iter_from_disk_colon in EI; [|assumption..]. subst l. cbn [filter] in ER. rewrite (proj2 (Ho []) eq_refl) in ER. cbn [mapm] in ER. rewrite bind_eq in ER. cbn [ret] in ER. rewrite ER. reflexivity.
Qed.
Lemma In_live k x p d : In (k, x) (live p d) <-> In (k, x) d /\ startswith k p = true /\ x <> VNone.
Proof.
  unfold live. rewrite filter_In. cbn [fst snd]. rewrite andb_true_iff, negb_true_iff. destruct x; cbn; intuition (try congruence; try discriminate).
Qed.
Lemma dget_filter_key {V} (p : pystr -> V -> bool) k (d : dict V) : NoDup (dkeys d) ->
  dget k (filter (fun kv => p (fst kv) (snd kv)) d) = match dget k d with Some x => if p k x then Some x else None | None => None end.
Proof.
  induction d as [|[k' x] d IH]; intros HN; [reflexivity|]. cbn [filter dget dkeys map fst snd] in *. inversion HN as [|? ? Hi HN']; subst.
  destruct (str_eqb_spec k k') as [->|Hk].
  - destruct (p k' x); cbn [dget].
    + rewrite str_eqb_refl. reflexivity.
    + rewrite IH by exact HN'. assert (dget k' d = None) as -> by (apply dget_None; exact Hi). reflexivity.
  - destruct (p k' x); cbn [dget]; [|apply IH, HN']. apply str_eqb_neq in Hk. rewrite Hk. apply IH, HN'.
Qed.
Lemma dget_live p k d : NoDup (dkeys d) ->
  dget k (live p d) = match dget k d with Some x => if (startswith k p && negb (is_none x))%bool then Some x else None | None => None end.
Proof. intros H. unfold live. apply (dget_filter_key (fun k x => startswith k p && negb (is_none x))%bool), H. Qed.
Lemma dget_listed p k v : NoDup (dkeys (dv_writes v)) -> NoDup (dkeys (dv_cache v)) ->
  dget k (listed p v) = match dget k (live p (dv_cache v)) with Some x => Some x | None => dget k (live p (dv_writes v)) end.
Proof.
  intros H1 H2. unfold listed. rewrite dget_dupdate by (apply NoDup_filter; exact H2).
  rewrite dget_dupdate by (apply NoDup_filter; exact H1). cbn [dget]. destruct (dget k (live p (dv_cache v))), (dget k (live p (dv_writes v))); reflexivity.
Qed.

(** ** Group names never contain ':' *)
Lemma fset_In p a f q b : In (q, b) (fset p a f) -> q = p \/ In (q, b) f.
Proof.
  induction f as [|[q' b'] f IH]; cbn [fset].
  - intros [E|[]]. injection E as <- <-. left. reflexivity.
  - destruct (gpath_eqb_spec p q') as [->|Hn].
    + intros [E|Hi]; [injection E as <- <-; left; reflexivity|right; right; exact Hi].
    + intros [E|Hi]; [right; left; exact E|]. destruct (IH Hi) as [->|H]; [left; reflexivity|right; right; exact H].
Qed.
Lemma no_colon_fset p a f : no_colon f -> (forall n, In n p -> ~ In (ch ":") n) -> no_colon (fset p a f).
Proof. intros H1 H2 q b n Hi Hn. destruct (fset_In _ _ _ _ _ Hi) as [->|H]; [exact (H2 n Hn)|exact (H1 q b n H Hn)]. Qed.
Lemma prefixes_In p q : In q (prefixes p) -> forall n, In n q -> In n p.
Proof.
  revert q. induction p as [|x p IH]; intros q; cbn [prefixes].
  - intros [<-|[]] n [].
  - intros [<-|Hi] n Hn; [destruct Hn|]. apply in_map_iff in Hi as (q' & <- & Hi). destruct Hn as [<-|Hn]; [left; reflexivity|right; exact (IH q' Hi n Hn)].
Qed.
Lemma no_colon_require f p : no_colon f -> (forall n, In n p -> ~ In (ch ":") n) -> no_colon (require_group f p).
Proof.
  intros HF HP. unfold require_group. pose proof (prefixes_In p) as HI. revert f HF. induction (prefixes p) as [|q qs IH]; intros f HF; [exact HF|].
  cbn [fold_left]. apply IH; [intros q' Hq'; apply HI; right; exact Hq'|]. unfold ensure. destruct (fget q f); [exact HF|].
  apply no_colon_fset; [exact HF|]. intros n Hn. apply HP. exact (HI q (or_introl eq_refl) n Hn).
Qed.
Lemma no_colon_new : no_colon new_file.
Proof. intros p a n [E|[]] Hn. injection E as <- <-. destruct Hn. Qed.
Lemma disk_no_colon_dset d fn f : disk_no_colon d -> no_colon f -> disk_no_colon (dset fn f d).
Proof.
  intros HD HF fn' f' Hi. revert HD Hi. induction d as [|[g0 h0] d IH]; cbn [dset]; intros HD Hi.
  - destruct Hi as [E|[]]. injection E as <- <-. exact HF.
  - destruct (str_eqb fn g0).
    + destruct Hi as [E|Hi]; [injection E as <- <-; exact HF|]. apply (HD fn' f'). right. exact Hi.
    + destruct Hi as [E|Hi]; [apply (HD fn' f'); left; exact E|]. apply IH; [|exact Hi]. intros x y Hx. apply (HD x y). right. exact Hx.
Qed.
Lemma open_a_no_colon d fn : disk_no_colon d -> no_colon (open_a d fn).
Proof. intros HD. unfold open_a. destruct (dget fn d) eqn:E; [|exact no_colon_new]. apply dget_In in E. exact (HD _ _ E). Qed.
Lemma norm_no_colon g n : ~ In (ch ":") g -> In n (norm g) -> ~ In (ch ":") n.
Proof.
  unfold norm. intros Hg Hn Hc. apply filter_In in Hn as [Hn _]. apply Hg. rewrite <- (join_split_all SLASH g).
  clear Hg. induction (split_all SLASH g) as [|p ps IH]; [destruct Hn|]. destruct ps as [|q ps].
  - destruct Hn as [->|[]]. exact Hc.
  - cbn [join]. apply in_or_app. destruct Hn as [->|Hn]; [left; exact Hc|right]. apply in_or_app. right. apply IH, Hn.
Qed.
Lemma parse_no_colon k : ~ In (ch ":") (snd (parse_key k)).
Proof.
  unfold parse_key. destruct (match split1 (ch ".") k with Some (a, b) => (a, Some b) | None => (k, None) end) as [p0 r]. cbn [snd].
  unfold replace_char. intros H. apply in_map_iff in H. destruct H as (y & E & _). revert E. destruct (N.eqb_spec y (ch ":")) as [E1|Hn]; [discriminate|]. intros E. exact (Hn E).
Qed.
Lemma h5_set_no_colon fn g v b d : ~ In (ch ":") g -> disk_no_colon d -> disk_no_colon (snd (h5_set fn g v b d)).
Proof.
  intros Hg HD. unfold h5_set. destruct (name_ok fn); [|exact HD]. cbn [negb]. pose proof (open_a_no_colon d fn HD) as HO.
  assert (HN : forall n, In n (norm g) -> ~ In (ch ":") n) by (intros n; apply norm_no_colon, Hg).
  destruct (str_eqb g []); cbn [snd]; apply disk_no_colon_dset; auto.
  unfold write_block, write_value. cbv zeta. apply no_colon_fset; [|exact HN]. apply no_colon_require; [|exact HN].
  apply no_colon_fset; [|exact HN]. apply no_colon_require; [exact HO|exact HN].
Qed.
Lemma h5_delete_no_colon fn g d : ~ In (ch ":") g -> disk_no_colon d -> disk_no_colon (snd (h5_delete fn g d)).
Proof.
  intros Hg HD. unfold h5_delete. destruct (name_ok fn); [|exact HD]. cbn [negb]. pose proof (open_a_no_colon d fn HD) as HO.
  destruct (str_eqb g []); cbn [snd]; [apply disk_no_colon_dset; auto|].
  destruct (fget (norm g) (open_a d fn)) as [[[v|] b]|]; cbn [snd]; apply disk_no_colon_dset; auto.
  apply no_colon_fset; [exact HO|]. intros n; apply norm_no_colon, Hg.
Qed.
Lemma svtd_no_colon k x b d : disk_no_colon d -> disk_no_colon (snd (set_value_to_disk (fst (parse_key k)) (snd (parse_key k)) x b d)).
Proof.
  intros HD. unfold set_value_to_disk. rewrite bind_eq. cbn [lift].
  destruct (match x with VNone => Ok None | _ => mapr Some (encode x) end) as [e|e]; [|exact HD].
  apply h5_set_no_colon; [apply parse_no_colon|exact HD].
Qed.
Lemma commit_one_no_colon kv d : disk_no_colon d -> disk_no_colon (snd (commit_one kv d)).
Proof.
  intros HD. unfold commit_one. pose proof (parse_no_colon (fst kv)) as HP. pose proof (svtd_no_colon (fst kv) (snd kv) None d HD) as HS.
  destruct (parse_key (fst kv)) as [fn g]. cbn [fst snd] in *.
  destruct (is_none (snd kv)); [apply h5_delete_no_colon; assumption|exact HS].
Qed.
Lemma foreach_inv {S A} (P : S -> Prop) (f : A -> st S unit) l : (forall a s, P s -> P (snd (f a s))) -> forall s, P s -> P (snd (foreach f l s)).
Proof.
  intros HF. induction l as [|a l IH]; intros s HS; [exact HS|]. cbn [foreach]. rewrite bind_eq. pose proof (HF a s HS) as H.
  destruct (f a s) as [[[]|e] s']; cbn [snd] in *; [apply IH, H|exact H].
Qed.
Lemma commit_all_no_colon l d : disk_no_colon d -> disk_no_colon (snd (commit_all l d)).
Proof. apply foreach_inv. intros a s. apply commit_one_no_colon. Qed.
Lemma commit_no_colon v v' : disk_no_colon (dv_disk v) -> commit v = (Ok tt, v') -> disk_no_colon (dv_disk v') /\ dv_writes v' = [] /\ dv_cache v' = [].
Proof.
  intros HD H. apply commit_inv in H as (d' & HC & ->). split; [|destruct v; split; reflexivity].
  pose proof (commit_all_no_colon (dv_writes v) _ HD) as H. rewrite HC in H. destruct v; exact H.
Qed.
