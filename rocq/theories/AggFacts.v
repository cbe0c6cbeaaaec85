(* One segment of a collective read or write. *)
From Coq.Strings Require Import Byte String.
From Coq Require Import List ZArith Lia Bool ZifyBool ZifyNat.
From Verif Require Import Base BaseFacts Dtype Cast Array FS Fmt Attr Block Spec SeekFacts FSFacts ArrayFacts ConvFacts WriteFacts ReadFacts
  OpenFacts Par MpiSpec ParFacts SyncFacts VecFacts CollFacts Mpi SegFacts StepFacts HistFacts.
Import ListNotations.
Open Scope Z_scope.
Ltac Zify.zify_post_hook ::= Z.div_mod_to_equations.

(* ------------------------------------------------------ lists of pieces *)
Lemma put_pieces_spec l : forall m at_, (forall x, at_ <= x < at_ + zsum (map zlen l) -> m x <> None) ->
  exists m', put_pieces m at_ l = Some m' /\ load m' at_ (Z.to_nat (zsum (map zlen l))) = Some (concat l) /\ (forall x, x < at_ -> m' x = m x).
Proof.
  induction l as [|v l IH]; intros m at_ H; [exists m; cbn; auto|]. cbn [map] in H. rewrite zsum_cons in H.
  pose proof (zlen_nonneg v) as Hv. assert (Hs : 0 <= zsum (map zlen l)). { apply zsum_nonneg. apply Forall_map. apply Forall_forall. intros; apply zlen_nonneg. }
  cbn [put_pieces]. destruct (store_some v m at_) as [m1 E1]. { intros y Hy. apply H. unfold zlen in *. lia. }
  rewrite E1. destruct (IH m1 (at_ + zlen v)) as (m' & E2 & L2 & F2).
  { intros x Hx Hc. apply (proj2 (store_domain _ _ _ _ E1 x)) in Hc. apply (H x); auto. lia. }
  exists m'. split; [exact E2|]. split.
  - cbn [map concat]. rewrite zsum_cons. replace (Z.to_nat (zlen v + zsum (map zlen l))) with (length v + Z.to_nat (zsum (map zlen l)))%nat by (unfold zlen in *; lia).
    apply load_app; [|exact L2]. rewrite (load_ext _ m1); [eapply load_store_same; eauto|]. intros k Hk. apply F2. unfold zlen. lia.
  - intros x Hx. rewrite F2 by lia. rewrite (store_spec _ _ _ _ E1 x). replace (at_ <=? x) with false by lia. reflexivity.
Qed.
Lemma zlen_concat (l : list bytes) : zlen (concat l) = zsum (map zlen l).
Proof. induction l as [|v l IH]; [reflexivity|]. cbn [concat map]. rewrite zlen_app, zsum_cons, IH. reflexivity. Qed.
Lemma get_pieces_spec lens : forall m at_, Forall (fun n => 0 <= n) lens -> (forall x, at_ <= x < at_ + zsum lens -> m x <> None) ->
  exists ps, get_pieces m at_ lens = Some ps /\ map zlen ps = lens /\ load m at_ (Z.to_nat (zsum lens)) = Some (concat ps).
Proof.
  induction lens as [|n lens IH]; intros m at_ HF H; [exists []; cbn; auto|]. inversion_clear HF as [|? ? Hn HF']. rewrite zsum_cons in *.
  assert (Hs : 0 <= zsum lens) by (apply zsum_nonneg; auto). cbn [get_pieces].
  destruct (load_some m at_ (Z.to_nat n)) as [v Ev]. { intros k Hk. apply H. lia. }
  destruct (IH m (at_ + n) HF') as (ps & E & L & Ld). { intros x Hx. apply H. lia. }
  exists (v :: ps). rewrite Ev, E. split; [reflexivity|]. pose proof (load_length _ _ _ _ Ev) as Lv. split.
  - cbn [map]. rewrite L. f_equal. unfold zlen. lia.
  - replace (Z.to_nat (n + zsum lens)) with (Z.to_nat n + Z.to_nat (zsum lens))%nat by lia. apply load_app; [exact Ev|].
    replace (at_ + Z.of_nat (Z.to_nat n)) with (at_ + n) by lia. exact Ld.
Qed.
Lemma pieces_unique (l l' : list bytes) : map zlen l = map zlen l' -> concat l = concat l' -> l = l'.
Proof.
  revert l'. induction l as [|v l IH]; intros [|v' l'] HL HC; try discriminate; [reflexivity|]. cbn [map concat] in *. injection HL as H1 H2.
  destruct (app_inj_len v v' (concat l) (concat l') HC) as [-> E]. { unfold zlen in H1. lia. } f_equal. auto.
Qed.

(* The rows of concatenated data. *)
Lemma group_concat_pieces {X} w (n : X -> Z) (d : X -> bytes) l : 0 <= w -> (forall i, In i l -> 0 <= n i /\ zlen (d i) = n i * w) ->
  group (Z.to_nat w) (Z.to_nat (zsum (map n l))) (concat (map d l)) = flat_map (fun i => group (Z.to_nat w) (Z.to_nat (n i)) (d i)) l.
Proof.
  intros Hw. induction l as [|i l IH]; intros H; [reflexivity|]. cbn [map concat flat_map]. rewrite zsum_cons.
  destruct (H i (or_introl eq_refl)) as [Hn Hd]. assert (Hs : 0 <= zsum (map n l)). { apply zsum_nonneg. apply Forall_map. apply Forall_forall. intros j Hj. apply H. right; auto. }
  rewrite Z2Nat.inj_add by lia. rewrite group_app by (unfold zlen in Hd; nia). f_equal. apply IH. intros j Hj. apply H. right; auto.
Qed.
Lemma group_group isz nm (D : bytes) : forall n, length D = (n * (isz * nm))%nat -> map (@concat byte) (group nm n (group isz (n * nm) D)) = group (isz * nm) n D.
Proof.
  intros n. revert D. induction n as [|n IH]; intros D H; [reflexivity|]. cbn [group map].
  assert (G : group isz (S n * nm) D = group isz nm (firstn (isz * nm) D) ++ group isz (n * nm) (skipn (isz * nm) D)).
  { replace (S n * nm)%nat with (nm + n * nm)%nat by lia. rewrite <- (firstn_skipn (isz * nm) D) at 1. apply group_app. rewrite firstn_length. nia. }
  rewrite G. assert (L : length (group isz nm (firstn (isz * nm) D)) = nm) by apply group_length.
  rewrite firstn_app, skipn_app, L, Nat.sub_diag. cbn [firstn skipn]. rewrite app_nil_r, firstn_all2, skipn_all2 by lia. cbn [app]. f_equal.
  - apply group_concat. rewrite firstn_length. nia.
  - apply IH. rewrite skipn_length. lia.
Qed.
Lemma rows_of_bytes isz nm n (D : bytes) : 0 <= isz -> 0 <= nm -> 0 <= n -> zlen D = n * (isz * nm) ->
  rows_of nm n (group (Z.to_nat isz) (Z.to_nat (n * nm)) D) = group (Z.to_nat (isz * nm)) (Z.to_nat n) D.
Proof.
  intros H1 H2 H3 H. unfold rows_of. replace (Z.to_nat (n * nm)) with (Z.to_nat n * Z.to_nat nm)%nat by nia. replace (Z.to_nat (isz * nm)) with (Z.to_nat isz * Z.to_nat nm)%nat by nia.
  apply group_group. unfold zlen in H. nia.
Qed.

Lemma verdict_one c rt r : In r (c_mem c) -> (forall j, In j (c_mem c) -> j <> r -> rt j = 0) -> verdict c rt = rt r.
Proof.
  intros Hr H. unfold verdict. destruct (last_bad (c_mem c) rt) as [j|] eqn:E.
  - apply last_bad_in in E. destruct E as [E1 E2]. destruct (Nat.eq_dec j r) as [->|Hj]; [reflexivity|]. rewrite (H j) in E2; auto. contradiction.
  - rewrite last_bad_none in E. symmetry. auto.
Qed.
Lemma fresh_mapped e n : buf_mapped (fresh e n) n.
Proof. intros x Hx. unfold fresh. replace ((0 <=? x) && (x <? n)) with true by lia. discriminate. Qed.

(* ------------------------------------------------------ vectors of steps *)
Section Vec.
Variable N : nat.
Lemma vloc {B C} S (x : nat -> out B) (b : nat -> B) (q : nat -> B -> M C) f Q : (forall i, (i < N)%nat -> S i = true -> x i = Ret (b i)) ->
  does N S (fun i => q i (b i)) f Q -> does N S (fun i => mbind (local (x i)) (q i)) f Q.
Proof. intros H HD. apply does_ext with (fun i => mbind (mret (b i)) (q i)); [intros i Hi HS; rewrite H; auto|]. exact HD. Qed.
Lemma vif {B} S (c : nat -> bool) (p q : nat -> M B) f Q : (forall i, (i < N)%nat -> S i = true -> c i = false) ->
  does N S q f Q -> does N S (fun i => if c i then p i else q i) f Q.
Proof. intros H HD. apply does_ext with q; [|exact HD]. intros i Hi HS. rewrite H; auto. Qed.
Lemma vat {B} r (p : nat -> M B) f Q : does N (Nat.eqb r) (fun _ => p r) f Q -> does N (Nat.eqb r) p f Q.
Proof. intros H. apply does_ext with (fun _ => p r); [|exact H]. intros i _ E. apply Nat.eqb_eq in E. subst. reflexivity. Qed.
(* One rank acts, the others pass. *)
Lemma does_root {B} S r (c : nat -> bool) (p q : nat -> M B) d f (Q : list (nat * act) -> (nat -> B) -> fs -> Prop) : (r < N)%nat -> S r = true ->
  (forall i, (i < N)%nat -> S i = true -> c i = (r =? i)%nat) -> (forall i, (i < N)%nat -> S i = true -> i <> r -> q i = mret (d i)) ->
  does N (Nat.eqb r) (fun _ => p r) f (fun l res f' => Q l (fun i => if (r =? i)%nat then res i else d i) f') ->
  does N S (fun i => if c i then p i else q i) f Q.
Proof.
  intros Hr HSr Hc Hq H. apply does_split with (S1 := Nat.eqb r) (Q1 := fun l res f' => Q l (fun i => if (r =? i)%nat then res i else d i) f').
  - apply does_set with (Nat.eqb r). { intros i Hi. destruct (Nat.eqb_spec r i) as [->|]; [rewrite HSr; reflexivity|apply andb_false_r]. }
    apply does_ext with (fun _ => p r); [|exact H]. intros i Hi E. apply Nat.eqb_eq in E. subst i. rewrite Hc by auto. rewrite Nat.eqb_refl. reflexivity.
  - intros l res f' HQ. apply does_ext with (fun i => mret (d i)).
    + intros i Hi E. apply andb_true_iff in E. destruct E as [E1 E2]. rewrite Hc by auto. destruct (r =? i)%nat eqn:E3; [discriminate|]. apply Hq; auto. intros ->. rewrite Nat.eqb_refl in E3. discriminate.
    + apply does_ret. rewrite app_nil_r. exact HQ.
Qed.
End Vec.

(* ------------------------------------------------------ one segment *)
(* Where the root ends up: a seek beyond the end has no effect. *)
Definition landing (sizes : list Z) (o off : Z) : Z := if o + off <=? zsum sizes then o + off else o.

Section Agg.
Variables (N : nat) (me : endian) (e : nat -> env) (b : nat -> block) (p : nat -> bptr) (sizes : list Z) (w : Z) (base dt : bytes) (nm o : Z) (n : nat -> Z).
Hypothesis HC : coll_ok N me e b p sizes w base dt nm o n.
Variables (a : nat -> array) (um : nat -> mem).

Variables (S : nat -> bool) (c : comm) (k r : nat) (off : Z).
Hypothesis HF : family N S (fun _ => c).
Hypothesis HS : exists i, (i < N)%nat /\ S i = true.
Hypothesis Hr : nth_error (c_mem c) k = Some r.
Hypothesis HT : zsum (map n (c_mem c)) < 2 ^ 31.
Hypothesis Hoff : 0 <= off.
Hypothesis Hend : o + off + zsum (map n (c_mem c)) < 2 ^ 63.
Let T := zsum (map n (c_mem c)).
Let ca i cs := mkArray 0 (b_dtype (b i)) [cs; b_nmemb (b i)] [itemsize (e_me (e i)) (b_dtype (b i)) * b_nmemb (b i); itemsize (e_me (e i)) (b_dtype (b i))] (cs * b_nmemb (b i)).

Lemma mem_ok : comm_ok N c.
Proof. destruct HS as (i & Hi & Hs). apply (HF i Hi Hs). Qed.
Lemma mem_lt j : In j (c_mem c) -> (j < N)%nat.
Proof. apply mem_ok. Qed.
Lemma mem_S j : In j (c_mem c) -> S j = true.
Proof. destruct HS as (i & Hi & Hs). intros Hj. apply (HF i Hi Hs). exact Hj. Qed.
Lemma S_mem i : (i < N)%nat -> S i = true -> In i (c_mem c).
Proof. intros Hi Hs. apply (HF i Hi Hs). Qed.
Lemma r_in : In r (c_mem c). Proof. eapply nth_error_In; eauto. Qed.
Lemma n_mem j : In j (c_mem c) -> 0 <= n j. Proof. intros Hj. apply (co_n _ _ _ _ _ _ _ _ _ _ _ _ HC). apply mem_lt. exact Hj. Qed.
Lemma part_le l l2 : c_mem c = l ++ l2 -> 0 <= zsum (map n l) /\ 0 <= zsum (map n l2) /\ zsum (map n l) + zsum (map n l2) = T.
Proof.
  intros E. unfold T. rewrite E, map_app, zsum_app. split; [|split; [|reflexivity]]; apply zsum_nonneg; apply Forall_map; apply Forall_forall; intros j Hj; apply n_mem; rewrite E; apply in_or_app; auto.
Qed.
Lemma T_pos : 0 <= T < 2 ^ 31. Proof. destruct (part_le (c_mem c) [] ltac:(rewrite app_nil_r; reflexivity)) as (A & B & D). cbn in D. unfold T in *. lia. Qed.
Lemma n_le j : In j (c_mem c) -> 0 <= n j <= T.
Proof. intros Hj. destruct (in_split _ _ Hj) as (l1 & l2 & E). destruct (part_le l1 (j :: l2) E) as (A & B & D). cbn [map] in *. rewrite zsum_cons in *.
  assert (0 <= zsum (map n l2)). { apply zsum_nonneg. apply Forall_map. apply Forall_forall. intros q Hq. apply n_mem. rewrite E. apply in_or_app. right. right. exact Hq. }
  pose proof (n_mem j Hj). lia. Qed.
Lemma s32_n j : In j (c_mem c) -> s32 (n j) = n j.
Proof. intros Hj. pose proof (n_le j Hj). pose proof T_pos. unfold s32. lia. Qed.
Lemma counts_eq : map (fun i => s32 (n i)) (c_mem c) = map n (c_mem c).
Proof. apply map_ext_in. intros j Hj. apply s32_n. exact Hj. Qed.
Lemma counts_range : existsb (fun k => negb (in_range CInt (zsum (firstn k (map n (c_mem c)))))) (seq 0 (Datatypes.S (length (map n (c_mem c))))) = false.
Proof.
  destruct (existsb _ _) eqn:E; [|reflexivity]. apply existsb_exists in E. destruct E as (q & _ & E). exfalso.
  rewrite firstn_map in E. destruct (part_le (firstn q (c_mem c)) (skipn q (c_mem c)) ltac:(rewrite firstn_skipn; reflexivity)) as (A & B & D). pose proof T_pos. cbn [in_range] in E. lia.
Qed.

(* The part of the code before the data are moved. *)
Lemma agg_head act f Q :
  does N S (fun i => let elsize := itemsize (e_me (e i)) (b_dtype (b i)) * b_nmemb (b i) in
    let la := ca i (n i) in let ga := ca i T in
    let lb := fresh (e i) (elsize * n i) in
    let gb := fresh (e i) (T * elsize) in
    let m := Z.to_nat (n i * b_nmemb (b i)) in
    let ia := iter_init (e_me (e i)) (a i) in
    let il := iter_init (e_me (e i)) la in
    let lens := map (fun k => k * elsize) (map n (c_mem c)) in
    let mylen := nth (rank_in c i) (map n (c_mem c)) 0 * elsize in
    match act with
    | AWrite =>
      '(_, lb1, _, um1, _) <- local (dtype_convert (e_me (e i)) lb il (um i) ia m) ;;
      mine <- local (or_ub OOB (load lb1 0 (Z.to_nat mylen))) ;;
      v <- mcoll c (KGatherv k mine lens) ;;
      '(rc, b1) <-
        (if (rank_in c i =? k)%nat then
           ps <- pieces v ;;
           gb1 <- local (or_ub OOB (put_pieces gb 0 ps)) ;;
           '(_, p1) <- local (big_block_seek_rel (b i) (p i) off) ;;
           '(rc, b1, _, _) <- block_write (e i) (b i) p1 ga gb1 ;;
           mret (rc, b1)
         else mret (0, b i)) ;;
      r <- agree c i rc ;;
      mret (r, b1, um1)
    | ARead =>
      '(rc, out) <-
        (if (rank_in c i =? k)%nat then
           '(_, p1) <- local (big_block_seek_rel (b i) (p i) off) ;;
           '(rc, _, gb1) <- block_read (e i) (b i) p1 ga gb ;;
           ps <- local (or_ub OOB (get_pieces gb1 0 lens)) ;;
           mret (rc, ps)
         else mret (0, [])) ;;
      v <- mcoll c (KScatterv k out (n i * elsize)) ;;
      mine <- data v ;;
      lb1 <- local (or_ub OOB (store lb 0 mine)) ;;
      '(_, um1, _, _, _) <- local (dtype_convert (e_me (e i)) (um i) ia lb1 il m) ;;
      r <- agree c i rc ;;
      mret (r, b i, um1)
    end)%prog f Q ->
  does N S (fun i => aggregated act (e i) c i k (b i) (p i) off (n i) (a i) (um i)) f Q.
Proof.
  intros H. unfold aggregated. cbv zeta.
  apply vif. { intros i Hi Hs. rewrite <- (wb_w _ _ _ _ (co_block _ _ _ _ _ _ _ _ _ _ _ _ HC i Hi)). pose proof (wb_wpos _ _ _ _ (co_block _ _ _ _ _ _ _ _ _ _ _ _ HC i Hi)). pose proof (co_w _ _ _ _ _ _ _ _ _ _ _ _ HC). lia. }
  apply does_bind with (fun l res f' => l = [] /\ f' = f /\ res = (fun _ => map n (c_mem c))).
  { apply does_allgather with (z := fun i => s32 (n i)); [exact HF|]. split; [reflexivity|]. split; [reflexivity|]. rewrite counts_eq. reflexivity. }
  intros l res f' (-> & -> & ->). cbn [app].
  apply does_bind with (fun l res f' => l = [] /\ f' = f /\ res = (fun _ => T)).
  { apply does_allreduce with (z := fun i => s32 (n i)) (r := fun _ => T); [exact HF| |auto].
    intros i Hi Hs. rewrite counts_eq. cbn [reduce1]. fold T. pose proof T_pos. unfold in_range. replace ((- 2 ^ 31 <=? T) && (T <? 2 ^ 31)) with true by lia. reflexivity. }
  intros l res f' (-> & -> & ->). cbn [app].
  apply vif. { intros i Hi Hs. apply counts_range. }
  apply vloc with (b := fun i => ca i (n i)). { intros i Hi Hs. apply chunk_array_init. apply (co_block _ _ _ _ _ _ _ _ _ _ _ _ HC i Hi). }
  apply vloc with (b := fun i => ca i T). { intros i Hi Hs. apply chunk_array_init. apply (co_block _ _ _ _ _ _ _ _ _ _ _ _ HC i Hi). }
  cbv zeta in H. exact H.
Qed.

Lemma w_eq i : (i < N)%nat -> itemsize (e_me (e i)) (b_dtype (b i)) * b_nmemb (b i) = w.
Proof. intros Hi. symmetry. apply (co_block _ _ _ _ _ _ _ _ _ _ _ _ HC i Hi). Qed.
Lemma w_pos : 0 < w.
Proof. destruct HS as (i & Hi & _). apply (wb_wpos _ _ _ _ (co_block _ _ _ _ _ _ _ _ _ _ _ _ HC i Hi)). Qed.
Lemma mylen_eq i : (i < N)%nat -> S i = true -> nth (rank_in c i) (map n (c_mem c)) 0 = n i.
Proof.
  intros Hi Hs. pose proof (S_mem i Hi Hs) as Hm. pose proof (index_nth _ _ Hm) as E. unfold rank_in. apply nth_error_nth. rewrite nth_error_map, E. reflexivity.
Qed.
Lemma root_is i : (i < N)%nat -> S i = true -> (rank_in c i =? k)%nat = (r =? i)%nat.
Proof.
  intros Hi Hs. pose proof (S_mem i Hi Hs) as Hm. pose proof (index_nth _ _ Hm) as E. pose proof mem_ok as [Hnd _ _]. unfold rank_in.
  destruct (Nat.eqb_spec r i) as [->|Hne].
  - rewrite (nth_index _ _ _ Hnd Hr). apply Nat.eqb_refl.
  - apply Nat.eqb_neq. intros X. rewrite X, Hr in E. congruence.
Qed.
Lemma seek_lands i : (i < N)%nat -> exists rc p1, big_block_seek_rel (b i) (p i) off = Ret (rc, p1) /\ ptr_at sizes p1 (landing sizes o off).
Proof.
  intros Hi. pose proof (co_ptr _ _ _ _ _ _ _ _ _ _ _ _ HC i Hi) as Hp. pose proof (wb_layout _ _ _ _ (co_block _ _ _ _ _ _ _ _ _ _ _ _ HC i Hi)) as HL.
  pose proof T_pos as HT0. pose proof (pa_range _ _ _ Hp) as Ho. pose proof (zsum_range _ _ HL). fold T in Hend.
  destruct (seek_rel_moves _ _ _ _ off HL Hp ltac:(lia) ltac:(lia)) as [A B]. unfold landing.
  destruct (Z.leb_spec (o + off) (zsum sizes)); [destruct (A ltac:(lia)) as (p' & E & P); eauto|rewrite (B ltac:(lia)); eauto].
Qed.
Lemma landing_range : landing sizes o off + T < 2 ^ 63.
Proof. pose proof T_pos. unfold landing. fold T in Hend. destruct (o + off <=? zsum sizes); lia. Qed.

Section Write.
Variables (d : nat -> bytes) (um1 : nat -> mem).
Hypothesis Hconv : forall i, (i < N)%nat -> S i = true -> exists rc lb1 il' ia',
  dtype_convert (e_me (e i)) (fresh (e i) (itemsize (e_me (e i)) (b_dtype (b i)) * b_nmemb (b i) * n i)) (iter_init (e_me (e i)) (ca i (n i))) (um i) (iter_init (e_me (e i)) (a i))
    (Z.to_nat (n i * b_nmemb (b i))) = Ret (rc, lb1, il', um1 i, ia') /\ load lb1 0 (Z.to_nat (n i * w)) = Some (d i).

Lemma d_len i : In i (c_mem c) -> zlen (d i) = n i * w.
Proof.
  intros Hi. destruct (Hconv i (mem_lt i Hi) (mem_S i Hi)) as (rc & lb & il & ia & _ & L). apply load_length in L. pose proof (n_mem i Hi). pose proof w_pos. unfold zlen. rewrite L. nia.
Qed.
Lemma d_total : zlen (concat (map d (c_mem c))) = T * w.
Proof.
  unfold T. assert (G : forall l, incl l (c_mem c) -> zlen (concat (map d l)) = zsum (map n l) * w); [|apply G; apply incl_refl].
  induction l as [|i l IH]; intros I; [reflexivity|]. cbn [map concat]. rewrite zlen_app, zsum_cons, IH, d_len; [lia|apply I; left; auto|]. intros x Hx. apply I. right; auto.
Qed.

Definition seg_rows : list bytes := flat_map (fun i => group (Z.to_nat w) (Z.to_nat (n i)) (d i)) (c_mem c).

Lemma agg_write f : does N S (fun i => aggregated AWrite (e i) c i k (b i) (p i) off (n i) (a i) (um i)) f (fun l res f' =>
  exists rc b', (forall i, (i < N)%nat -> S i = true -> res i = (rc, if (r =? i)%nat then b' else b i, um1 i)) /\
    same_files f f' /\ (forall j x, In (j, x) l -> j = r /\ row_write base sizes w (landing sizes o off) (landing sizes o off + T) x) /\
    wblock (e r) b' sizes w /\ like (b r) b' /\ (rc = 0 \/ rc = -1) /\
    (T = 0 -> rc = 0 /\ f' = f /\ b' = b r /\ l = []) /\
    (0 < T -> zsum sizes < landing sizes o off + T -> rc = -1 /\ f' = f /\ l = []) /\
    (0 < T -> landing sizes o off + T <= zsum sizes -> rc = 0 -> rows_exist f base sizes (landing sizes o off) (landing sizes o off + T)) /\
    (0 < T -> landing sizes o off + T <= zsum sizes -> rows_exist f base sizes (landing sizes o off) (landing sizes o off + T) -> rc = 0 /\ fs_eq f' (put_rows f base sizes w (landing sizes o off) seg_rows) /\
       b' = set_checksums (set_bdirty (b r) true) (add_sums (b_fchecksum (b r)) sizes (landing sizes o off) seg_rows))).
Proof.
  apply agg_head. cbv zeta.
  set (cv := fun i => match dtype_convert (e_me (e i)) (fresh (e i) (itemsize (e_me (e i)) (b_dtype (b i)) * b_nmemb (b i) * n i)) (iter_init (e_me (e i)) (ca i (n i))) (um i)
    (iter_init (e_me (e i)) (a i)) (Z.to_nat (n i * b_nmemb (b i))) with Ret (q0, q1, q2, q3, q4) => (q0, q1, q2, q4) | _ => (0, um i, iter_init (e_me (e i)) (a i), iter_init (e_me (e i)) (a i)) end).
  apply vloc with (b := fun i => (fst (fst (fst (cv i))), snd (fst (fst (cv i))), snd (fst (cv i)), um1 i, snd (cv i))).
  { intros i Hi Hs. destruct (Hconv i Hi Hs) as (rc & lb1 & il' & ia' & E & _). unfold cv. rewrite E. reflexivity. }
  cbv beta iota.
  apply vloc with (b := d).
  { intros i Hi Hs. destruct (Hconv i Hi Hs) as (rc & lb1 & il' & ia' & E & L). unfold cv. rewrite E. cbv beta iota. cbn [fst snd]. rewrite mylen_eq, w_eq by auto. rewrite L. reflexivity. }
  cbv beta iota.
  apply does_bind with (fun l res f' => l = [] /\ f' = f /\ res = fun i => if (index (c_mem c) i =? k)%nat then VBs (map d (c_mem c)) else VNone).
  { apply does_gatherv with (C := fun _ => c) (root := fun _ => k); auto. intros i Hi Hs _. rewrite w_eq by auto. rewrite !map_map. apply map_ext_in. intros j Hj. apply d_len. exact Hj. }
  intros l res f' (-> & -> & ->). cbn [app]. pose proof r_in as Rin. pose proof (mem_lt r Rin) as Rlt. pose proof (mem_S r Rin) as RS.
  pose proof (co_block _ _ _ _ _ _ _ _ _ _ _ _ HC r Rlt) as HW. pose proof T_pos as HT0. pose proof w_pos as Hw. pose proof landing_range as Hlr. pose proof (wb_nmemb _ _ _ _ HW) as Hnm.
  pose proof (w_eq r Rlt) as Ew. assert (Hisz : 0 < itemsize (e_me (e r)) (b_dtype (b r))) by apply HW.
  apply does_bind with (fun l res f' => exists rc b', (forall i, (i < N)%nat -> S i = true -> res i = if (r =? i)%nat then (rc, b') else (0, b i)) /\
    same_files f f' /\ (forall j x, In (j, x) l -> j = r /\ row_write base sizes w (landing sizes o off) (landing sizes o off + T) x) /\
    wblock (e r) b' sizes w /\ like (b r) b' /\ (rc = 0 \/ rc = -1) /\
    (T = 0 -> rc = 0 /\ f' = f /\ b' = b r /\ l = []) /\
    (0 < T -> zsum sizes < landing sizes o off + T -> rc = -1 /\ f' = f /\ l = []) /\
    (0 < T -> landing sizes o off + T <= zsum sizes -> rc = 0 -> rows_exist f base sizes (landing sizes o off) (landing sizes o off + T)) /\
    (0 < T -> landing sizes o off + T <= zsum sizes -> rows_exist f base sizes (landing sizes o off) (landing sizes o off + T) -> rc = 0 /\ fs_eq f' (put_rows f base sizes w (landing sizes o off) seg_rows) /\
       b' = set_checksums (set_bdirty (b r) true) (add_sums (b_fchecksum (b r)) sizes (landing sizes o off) seg_rows))).
  - eapply does_root with (r := r) (d := fun i => (0, b i)); auto.
    { intros i Hi Hs. apply root_is; auto. }
    cbv beta. pose proof (root_is r Rlt RS) as Rk. unfold rank_in in Rk. rewrite Nat.eqb_refl in Rk. rewrite Rk. cbn [pieces].
    destruct (put_pieces_spec (map d (c_mem c)) (fresh (e r) (T * (itemsize (e_me (e r)) (b_dtype (b r)) * b_nmemb (b r)))) 0) as (gb1 & Egb & Lgb & _).
    { replace (zsum (map zlen (map d (c_mem c)))) with (T * w). 2:{ rewrite <- d_total. apply zlen_concat. }
      intros x Hx. apply fresh_mapped. rewrite Ew. lia. }
    replace (zsum (map zlen (map d (c_mem c)))) with (T * w) in Lgb. 2:{ rewrite <- d_total. apply zlen_concat. }
    eapply does_loc with (b := gb1); [rewrite Egb; reflexivity|].
    destruct (seek_lands r Rlt) as (rc0 & p1 & Es & Hp1). eapply does_loc; [exact Es|]. cbv beta iota.
    set (D := concat (map d (c_mem c))) in *. set (es := group (Z.to_nat (itemsize (e_me (e r)) (b_dtype (b r)))) (Z.to_nat (T * b_nmemb (b r))) D).
    pose proof d_total as HD. fold D in HD.
    assert (HDl : length D = (Z.to_nat (T * b_nmemb (b r)) * Z.to_nat (itemsize (e_me (e r)) (b_dtype (b r))))%nat).
    { unfold zlen in HD. rewrite <- Ew in HD. clear -HD HT0 Hisz Hnm. nia. }
    assert (Hes : concat es = D) by (apply group_concat; exact HDl).
    assert (Hrows : rows_of (b_nmemb (b r)) T es = seg_rows).
    { unfold es. rewrite rows_of_bytes by (first [lia|rewrite Ew; exact HD]). rewrite Ew. unfold D, T, seg_rows. apply group_concat_pieces; [lia|]. intros i Hi. split; [apply n_mem; exact Hi|apply d_len; exact Hi]. }
    eapply does_bind; [eapply (root_write N r Rlt (e r) (b r) sizes w p1 (landing sizes o off) T es gb1 f HW)|].
    { apply (co_chunk _ _ _ _ _ _ _ _ _ _ _ _ HC r Rlt). }
    { apply (co_w _ _ _ _ _ _ _ _ _ _ _ _ HC). }
    { lia. }
    { unfold es, zlen. rewrite group_length. clear -HT0 Hnm. nia. }
    { apply group_lengths. exact HDl. }
    { rewrite Hes. exact Lgb. }
    { exact Hp1. }
    { exact Hlr. }
    cbv beta. intros l res f' (rc & b' & p' & um' & -> & H1 & H2 & H3 & H4 & H5 & H6 & H7 & H8). cbv beta iota.
    rewrite (co_base _ _ _ _ _ _ _ _ _ _ _ _ HC r Rlt) in *. rewrite Hrows in *.
    apply (does_ret N (Nat.eqb r) (fun _ => (rc, b'))). rewrite app_nil_r. exists rc, b'.
    split; [intros i Hi Hs; reflexivity|]. split; [exact H1|]. split; [exact H2|]. split; [exact H3|]. split; [exact H4|]. split.
    { destruct (Z.eq_dec T 0) as [ET|ET]; [left; apply H5; exact ET|]. destruct (Z_lt_le_dec (zsum sizes) (landing sizes o off + T)) as [L|L]; [right; apply H6; lia|].
      destruct (H7 ltac:(lia) L) as [[X _]|[X _]]; auto. }
    split; [exact H5|]. split; [exact H6|]. split; [|exact H8]. intros P L R0. destruct (H7 P L) as [[_ X]|[X _]]; [exact X|lia].
  - cbv beta. intros l res f' (rc & b' & HR & H1 & H2 & H3 & H4 & H5 & H6 & H7 & H8 & H9).
    apply does_ext with (fun i => r0 <- agree c i (if (r =? i)%nat then rc else 0) ;; mret (r0, (if (r =? i)%nat then b' else b i), um1 i))%prog.
    { intros i Hi Hs. rewrite HR by auto. destruct (r =? i)%nat; reflexivity. }
    apply does_bind with (fun l res f2 => l = [] /\ f2 = f' /\ forall i, (i < N)%nat -> S i = true -> res i = rc).
    { apply (does_agree N S (fun _ => c) (fun i => if (r =? i)%nat then rc else 0)); [exact HF|]. intros res2 HR2. split; [reflexivity|]. split; [reflexivity|].
      intros i Hi Hs. rewrite HR2 by auto. rewrite (verdict_one c _ r Rin); [rewrite Nat.eqb_refl; reflexivity|]. intros j Hj Hne. destruct (Nat.eqb_spec r j); [congruence|reflexivity]. }
    intros l2 res2 f2 (-> & -> & HR2). apply does_ext with (fun i => mret (rc, (if (r =? i)%nat then b' else b i), um1 i)).
    { intros i Hi Hs. rewrite HR2 by auto. reflexivity. }
    apply does_ret. rewrite app_nil_r. exists rc, b'. split; [auto|]. auto 12.
Qed.
End Write.

Section Read.
Variables (f : fs) (okd : nat -> bytes -> Prop) (post : nat -> bytes -> mem -> Prop) (R : nat -> list bytes).
Hypothesis Hconv : forall i d lb1, (i < N)%nat -> S i = true -> zlen d = n i * w -> okd i d -> load lb1 0 (Z.to_nat (n i * w)) = Some d -> exists rc um' ia' lb' il',
  dtype_convert (e_me (e i)) (um i) (iter_init (e_me (e i)) (a i)) lb1 (iter_init (e_me (e i)) (ca i (n i))) (Z.to_nat (n i * b_nmemb (b i))) = Ret (rc, um', ia', lb', il') /\ post i d um'.
(* The rows asked for are there. *)
Definition avail : Prop := landing sizes o off + T <= zsum sizes /\ (forall i, In i (c_mem c) -> zlen (R i) = n i) /\
  forall j v, nth_error (flat_map R (c_mem c)) j = Some v -> stored_row f base sizes w (landing sizes o off + Z.of_nat j) = Some v.
Hypothesis Hok : (forall i d, In i (c_mem c) -> zlen d = n i * w -> okd i d) \/ (avail /\ forall i, In i (c_mem c) -> okd i (concat (R i))).

Lemma concat_flat_map {X} (g : X -> list bytes) l : concat (flat_map g l) = concat (map (fun i => concat (g i)) l).
Proof. induction l as [|x l IH]; [reflexivity|]. cbn [flat_map map concat]. rewrite concat_app, IH. reflexivity. Qed.
Lemma zlen_flat_map {X Y} (g : X -> list Y) l : zlen (flat_map g l) = zsum (map (fun i => zlen (g i)) l).
Proof. induction l as [|x l IH]; [reflexivity|]. cbn [flat_map map]. rewrite zlen_app, zsum_cons, IH. reflexivity. Qed.
Lemma zsum_scale (l : list Z) : zsum (map (fun x => x * w) l) = zsum l * w.
Proof. induction l as [|x l IH]; [reflexivity|]. cbn [map]. rewrite !zsum_cons, IH. ring. Qed.
Lemma avail_widths i : avail -> In i (c_mem c) -> zlen (concat (R i)) = n i * w.
Proof.
  intros (A & B & D) Hi. rewrite <- (B i Hi). assert (F : Forall (fun v => length v = Z.to_nat w) (R i)).
  { rewrite Forall_forall. intros v Hv. assert (Hv2 : In v (flat_map R (c_mem c))) by (apply in_flat_map; eauto).
    apply In_nth_error in Hv2. destruct Hv2 as (j & Hj). pose proof w_pos as Hwp. refine (StepFacts.stored_row_width _ _ _ w _ v _ (D j v Hj)). lia. }
  pose proof (concat_length_w (R i) _ F) as E. pose proof w_pos. unfold zlen. rewrite E, Nat2Z.inj_mul, Z2Nat.id by lia. reflexivity.
Qed.

Lemma agg_read : does N S (fun i => aggregated ARead (e i) c i k (b i) (p i) off (n i) (a i) (um i)) f (fun l res f' =>
  f' = f /\ (forall j x, In (j, x) l -> j = r /\ some_read x) /\ exists rc,
    (forall i, (i < N)%nat -> S i = true -> exists um' d, res i = (rc, b i, um') /\ zlen d = n i * w /\ okd i d /\ post i d um' /\ (avail -> d = concat (R i))) /\
    (rc = 0 \/ rc = -1) /\ (T = 0 -> rc = 0) /\
    (0 < T -> zsum sizes < landing sizes o off + T -> rc = -1) /\
    (0 < T -> (exists q, landing sizes o off <= q < landing sizes o off + T /\ stored_row f base sizes w q = None) -> rc = -1) /\
    (avail -> rc = 0)).
Proof.
  apply agg_head. cbv zeta.
  pose proof r_in as Rin. pose proof (mem_lt r Rin) as Rlt. pose proof (mem_S r Rin) as RS.
  pose proof (co_block _ _ _ _ _ _ _ _ _ _ _ _ HC r Rlt) as HW. pose proof T_pos as HT0. pose proof w_pos as Hw. pose proof landing_range as Hlr. pose proof (wb_nmemb _ _ _ _ HW) as Hnm.
  pose proof (w_eq r Rlt) as Ew.
  set (lens := map (fun q => q * w) (map n (c_mem c))).
  assert (Hlens : zsum lens = T * w) by apply zsum_scale.
  assert (Flens : Forall (fun q => 0 <= q) lens).
  { unfold lens. rewrite map_map. apply Forall_map. apply Forall_forall. intros i Hi. pose proof (n_mem i Hi). nia. }
  apply does_bind with (fun l res f' => f' = f /\ (forall j x, In (j, x) l -> j = r /\ some_read x) /\ exists rc ps,
    (forall i, (i < N)%nat -> S i = true -> res i = if (r =? i)%nat then (rc, ps) else (0, [])) /\ map zlen ps = lens /\
    (rc = 0 \/ rc = -1) /\ (T = 0 -> rc = 0) /\
    (0 < T -> zsum sizes < landing sizes o off + T -> rc = -1) /\
    (0 < T -> (exists q, landing sizes o off <= q < landing sizes o off + T /\ stored_row f base sizes w q = None) -> rc = -1) /\
    (avail -> rc = 0 /\ ps = map (fun i => concat (R i)) (c_mem c))).
  - eapply does_root with (r := r) (d := fun i => (0, [])); auto.
    { intros i Hi Hs. apply root_is; auto. }
    cbv beta. destruct (seek_lands r Rlt) as (rc0 & p1 & Es & Hp1). eapply does_loc; [exact Es|]. cbv beta iota.
    eapply does_bind; [eapply (root_read N r Rlt (e r) (b r) sizes w p1 (landing sizes o off) T _ f HW)|].
    { apply (co_chunk _ _ _ _ _ _ _ _ _ _ _ _ HC r Rlt). }
    { apply (co_w _ _ _ _ _ _ _ _ _ _ _ _ HC). }
    { lia. }
    { rewrite Ew. apply fresh_mapped. }
    { exact Hp1. }
    { exact Hlr. }
    cbv beta. intros l res f' (-> & HA & rc & p' & gb' & -> & Hgb & H1 & H2 & H3 & H4 & H5). cbv beta iota.
    rewrite (co_base _ _ _ _ _ _ _ _ _ _ _ _ HC r Rlt) in *. rewrite Ew. fold lens.
    destruct (get_pieces_spec lens gb' 0 Flens) as (ps & Eps & Lps & Ldp). { rewrite Hlens. intros x Hx. apply Hgb. lia. }
    eapply does_loc with (b := ps); [rewrite Eps; reflexivity|].
    apply (does_ret N (Nat.eqb r) (fun _ => (rc, ps))). rewrite app_nil_r. split; [reflexivity|]. split; [exact HA|]. exists rc, ps.
    split; [intros; reflexivity|]. split; [exact Lps|]. split; [exact H1|]. split; [exact H2|]. split; [exact H3|]. split; [exact H4|].
    intros HAv. pose proof HAv as (A & B & D).
    assert (Elen : map zlen (map (fun i => concat (R i)) (c_mem c)) = lens).
    { unfold lens. rewrite !map_map. apply map_ext_in. intros i Hi. apply avail_widths; auto. }
    assert (Hzl : zlen (flat_map R (c_mem c)) = T).
    { rewrite zlen_flat_map. unfold T. f_equal. apply map_ext_in. exact B. }
    destruct (Z.eq_dec T 0) as [ET|ET].
    { split; [apply H2; exact ET|]. apply pieces_unique; [rewrite Lps, Elen; reflexivity|].
      assert (Z1 : forall q : list bytes, map zlen q = lens -> concat q = []).
      { intros q Hq. pose proof (zlen_concat q) as Hz. rewrite Hq, Hlens, ET in Hz. destruct (concat q); [reflexivity|]. unfold zlen in Hz. cbn [length] in Hz. lia. }
      rewrite !Z1; auto. }
    destruct (H5 (flat_map R (c_mem c)) ltac:(lia) A Hzl D) as [E0 El]. split; [exact E0|].
    apply pieces_unique; [rewrite Lps, Elen; reflexivity|]. rewrite Hlens in Ldp. rewrite Ldp in El. injection El as El. rewrite El. apply concat_flat_map.
  - cbv beta. intros l res f' (-> & HA & rc & ps & HR & Lps & H1 & H2 & H3 & H4 & H5).
    set (d := fun i => nth (index (c_mem c) i) ps []).
    assert (Hd : forall i, (i < N)%nat -> S i = true -> nth_error ps (index (c_mem c) i) = Some (d i) /\ zlen (d i) = n i * w).
    { intros i Hi Hs. pose proof (S_mem i Hi Hs) as Hm. pose proof (index_lt _ _ Hm) as Lt.
      assert (Lp : length ps = length (c_mem c)). { rewrite <- (map_length zlen), Lps. unfold lens. rewrite !map_length. reflexivity. }
      assert (E : nth_error ps (index (c_mem c) i) = Some (d i)) by (apply nth_error_nth'; lia). split; [exact E|].
      assert (E2 : nth_error (map zlen ps) (index (c_mem c) i) = Some (zlen (d i))) by (rewrite nth_error_map, E; reflexivity).
      rewrite Lps in E2. unfold lens in E2. rewrite !nth_error_map, (index_nth _ _ Hm) in E2. cbn in E2. congruence. }
    assert (Hda : avail -> forall i, (i < N)%nat -> S i = true -> d i = concat (R i)).
    { intros HAv i Hi Hs. destruct (H5 HAv) as [_ Ep]. destruct (Hd i Hi Hs) as [E _]. rewrite Ep, nth_error_map, (index_nth _ _ (S_mem i Hi Hs)) in E. cbn in E. congruence. }
    assert (Hdo : forall i, (i < N)%nat -> S i = true -> okd i (d i)).
    { intros i Hi Hs. pose proof (S_mem i Hi Hs) as Hm. destruct Hok as [X|[HAv X]]; [apply X; [exact Hm|]; apply Hd; auto|]. rewrite (Hda HAv i Hi Hs). apply X. exact Hm. }
    apply does_ext with (fun i => v <- mcoll c (KScatterv k (if (r =? i)%nat then ps else []) (n i * (itemsize (e_me (e i)) (b_dtype (b i)) * b_nmemb (b i)))) ;;
      mine <- data v ;;
      lb1 <- local (or_ub OOB (store (fresh (e i) (itemsize (e_me (e i)) (b_dtype (b i)) * b_nmemb (b i) * n i)) 0 mine)) ;;
      '(_, um1, _, _, _) <- local (dtype_convert (e_me (e i)) (um i) (iter_init (e_me (e i)) (a i)) lb1 (iter_init (e_me (e i)) (ca i (n i))) (Z.to_nat (n i * b_nmemb (b i)))) ;;
      r0 <- agree c i (if (r =? i)%nat then rc else 0) ;;
      mret (r0, b i, um1))%prog.
    { intros i Hi Hs. rewrite HR by auto. destruct (r =? i)%nat; reflexivity. }
    apply does_bind with (fun l res f' => l = [] /\ f' = f /\ res = fun i => VB (d i)).
    { apply does_scatterv with (C := fun _ => c) (root := fun _ => k) (src := fun _ => r) (r := d); auto.
      intros i Hi Hs. split; [exact Hr|]. rewrite Nat.eqb_refl. destruct (Hd i Hi Hs) as [E1 E2]. split; [exact E1|]. split; [|auto]. rewrite w_eq by auto. exact E2. }
    intros l2 res2 f2 (-> & -> & ->). cbn [app].
    set (lb1 := fun i => match store (fresh (e i) (itemsize (e_me (e i)) (b_dtype (b i)) * b_nmemb (b i) * n i)) 0 (d i) with Some m => m | None => fresh (e i) 0 end).
    apply does_ext with (fun i => lb1 <- local (or_ub OOB (store (fresh (e i) (itemsize (e_me (e i)) (b_dtype (b i)) * b_nmemb (b i) * n i)) 0 (d i))) ;;
      '(_, um1, _, _, _) <- local (dtype_convert (e_me (e i)) (um i) (iter_init (e_me (e i)) (a i)) lb1 (iter_init (e_me (e i)) (ca i (n i))) (Z.to_nat (n i * b_nmemb (b i)))) ;;
      r0 <- agree c i (if (r =? i)%nat then rc else 0) ;;
      mret (r0, b i, um1))%prog; [reflexivity|].
    assert (Hst : forall i, (i < N)%nat -> S i = true -> store (fresh (e i) (itemsize (e_me (e i)) (b_dtype (b i)) * b_nmemb (b i) * n i)) 0 (d i) = Some (lb1 i) /\
      load (lb1 i) 0 (Z.to_nat (n i * w)) = Some (d i)).
    { intros i Hi Hs. destruct (Hd i Hi Hs) as [_ Ld]. unfold lb1. destruct (store_some (d i) (fresh (e i) (itemsize (e_me (e i)) (b_dtype (b i)) * b_nmemb (b i) * n i)) 0) as [m Em].
      { intros y Hy. apply fresh_mapped. rewrite w_eq by auto. unfold zlen in Ld. lia. }
      rewrite Em. split; [reflexivity|]. replace (Z.to_nat (n i * w)) with (length (d i)) by (unfold zlen in Ld; lia). eapply load_store_same; eauto. }
    apply vloc with (b := lb1). { intros i Hi Hs. destruct (Hst i Hi Hs) as [E _]. rewrite E. reflexivity. }
    set (cv := fun i => match dtype_convert (e_me (e i)) (um i) (iter_init (e_me (e i)) (a i)) (lb1 i) (iter_init (e_me (e i)) (ca i (n i)))
       (Z.to_nat (n i * b_nmemb (b i))) with Ret x => x | _ => (0, um i, iter_init (e_me (e i)) (a i), um i, iter_init (e_me (e i)) (a i)) end).
    set (um1 := fun i => snd (fst (fst (fst (cv i))))).
    apply vloc with (b := fun i => (fst (fst (fst (fst (cv i)))), um1 i, snd (fst (fst (cv i))), snd (fst (cv i)), snd (cv i))).
    { intros i Hi Hs. destruct (Hconv i (d i) (lb1 i) Hi Hs) as (rcx & um' & ia' & lb' & il' & E & _); [apply Hd; auto|apply Hdo; auto|apply Hst; auto|]. unfold um1, cv. rewrite E. reflexivity. }
    assert (Hpost : forall i, (i < N)%nat -> S i = true -> post i (d i) (um1 i)).
    { intros i Hi Hs. destruct (Hconv i (d i) (lb1 i) Hi Hs) as (rcx & um' & ia' & lb' & il' & E & P); [apply Hd; auto|apply Hdo; auto|apply Hst; auto|]. unfold um1, cv. rewrite E. exact P. }
    cbv beta iota.
    apply does_bind with (fun l res f2 => l = [] /\ f2 = f /\ forall i, (i < N)%nat -> S i = true -> res i = rc).
    { apply (does_agree N S (fun _ => c) (fun i => if (r =? i)%nat then rc else 0)); [exact HF|]. intros res2 HR2. split; [reflexivity|]. split; [reflexivity|].
      intros i Hi Hs. rewrite HR2 by auto. rewrite (verdict_one c _ r Rin); [rewrite Nat.eqb_refl; reflexivity|]. intros j Hj Hne. destruct (Nat.eqb_spec r j); [congruence|reflexivity]. }
    intros l2 res2 f2 (-> & -> & HR2). apply does_ext with (fun i => mret (rc, b i, um1 i)).
    { intros i Hi Hs. rewrite HR2 by auto. reflexivity. }
    apply does_ret. rewrite !app_nil_r. split; [reflexivity|]. split; [exact HA|]. exists rc. split; [|split; [exact H1|split; [exact H2|split; [exact H3|split; [exact H4|apply H5]]]]].
    intros i Hi Hs. exists (um1 i), (d i). split; [reflexivity|]. split; [apply Hd; auto|]. split; [apply Hdo; auto|]. split; [apply Hpost; auto|]. intros HAv. apply Hda; auto.
Qed.
End Read.
End Agg.
