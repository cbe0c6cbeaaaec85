(* The sparse exchange: who is visited, and an invariant of all runs. *)
From Coq Require Import List ZArith Arith Lia Bool ZifyBool ZifyNat Permutation.
From Verif Require Import Alltoall.
Import ListNotations.

Lemma nth_mid : forall {B} (l1 : list B) w l2, nth_error (l1 ++ w :: l2) (length l1) = Some w.
Proof. intros. rewrite nth_error_app2 by lia. rewrite Nat.sub_diag. reflexivity. Qed.
Lemma nth_other : forall {B} (l1 : list B) w w' l2 i x, nth_error (l1 ++ w' :: l2) i = Some x ->
  (i = length l1 /\ x = w') \/ (i <> length l1 /\ nth_error (l1 ++ w :: l2) i = Some x).
Proof.
  intros B l1 w w' l2 i x H. destruct (lt_eq_lt_dec i (length l1)) as [[H1|H1]|H1].
  - right; split; [lia|]. rewrite nth_error_app1 in * by lia. exact H.
  - left; split; [exact H1|]. subst i. rewrite nth_mid in H. injection H as <-. reflexivity.
  - right; split; [lia|]. rewrite nth_error_app2 in * by lia. destruct (i - length l1) eqn:E; [lia|]. exact H.
Qed.
Lemma nth_upd : forall {B} (P Q : nat -> B -> Prop) l1 w w' l2,
  (forall i x, nth_error (l1 ++ w :: l2) i = Some x -> P i x) ->
  (P (length l1) w -> Q (length l1) w') ->
  (forall i x, i <> length l1 -> P i x -> Q i x) ->
  forall i x, nth_error (l1 ++ w' :: l2) i = Some x -> Q i x.
Proof.
  intros B P Q l1 w w' l2 H1 H2 H3 i x Hx. destruct (nth_other _ w _ _ _ _ Hx) as [[-> ->]|[Hi Hx']].
  - apply H2, H1, nth_mid.
  - apply H3; [exact Hi|]. apply H1. exact Hx'.
Qed.

(* -------- partners -------- *)
Lemma ptask_from_spec : forall fuel n p q, ptask_from fuel n p = Some q -> n <= 2 ^ q /\ (q = p \/ 2 ^ (q - 1) < n) /\ p <= q.
Proof.
  induction fuel as [|fuel IH]; intros n p q H; [discriminate|]. cbn [ptask_from] in H.
  destruct (Z.of_nat n >? 2 ^ Z.of_nat p)%Z eqn:E.
  - apply IH in H. destruct H as (H1 & H2 & H3). split; [exact H1|]. split; [|lia]. right.
    destruct H2 as [->|H2]; [|exact H2]. replace (S p - 1) with p by lia.
    apply Nat2Z.inj_lt. rewrite Nat2Z.inj_pow. lia.
  - injection H as <-. split; [|split; lia]. apply Nat2Z.inj_le. rewrite Nat2Z.inj_pow. lia.
Qed.
Lemma ptask_from_some : forall fuel n p, (Z.of_nat n <= 2 ^ (Z.of_nat p + Z.of_nat fuel - 1))%Z -> 0 < fuel -> exists q, ptask_from fuel n p = Some q.
Proof.
  induction fuel as [|fuel IH]; intros n p H H0; [lia|]. cbn [ptask_from].
  destruct (Z.of_nat n >? 2 ^ Z.of_nat p)%Z eqn:E; [|eauto].
  destruct fuel as [|fuel].
  - exfalso. replace (Z.of_nat p + Z.of_nat 1 - 1)%Z with (Z.of_nat p) in H by lia. lia.
  - apply IH; [|lia]. replace (Z.of_nat (S p) + Z.of_nat (S fuel) - 1)%Z with (Z.of_nat p + Z.of_nat (S (S fuel)) - 1)%Z by lia. exact H.
Qed.

Definition todo (n : nat) (cnt : nat -> nat) (me : nat) (gs : list nat) : list nat :=
  flat_map (fun g => match partner n cnt me g with Some t => [t] | None => [] end) gs.
Definition wants (n : nat) (cnt : nat -> nat) (me p : nat) : list nat := todo n cnt me (groups p).

Lemma lxor_bound : forall p a b, a < 2 ^ p -> b < 2 ^ p -> Nat.lxor a b < 2 ^ p.
Proof.
  intros p a b Ha Hb. destruct (Nat.eq_dec (Nat.lxor a b) 0) as [E|E]; [rewrite E; lia|].
  apply Nat.log2_lt_pow2; [lia|]. pose proof (Nat.log2_lxor a b).
  assert (Hx : forall c, c < 2 ^ p -> c = 0 \/ Nat.log2 c < p).
  { intros c Hc. destruct (Nat.eq_dec c 0) as [->|Hc0]; [auto|]. right. apply Nat.log2_lt_pow2; lia. }
  destruct (Hx a Ha) as [->|Ha'].
  - rewrite Nat.lxor_0_l in *. destruct (Hx b Hb) as [->|]; [lia|assumption].
  - destruct (Hx b Hb) as [->|Hb']; [rewrite Nat.lxor_0_r in *; assumption|]. lia.
Qed.
Lemma lxor_twice : forall a b, Nat.lxor a (Nat.lxor a b) = b.
Proof. intros a b. rewrite <- Nat.lxor_assoc, Nat.lxor_nilpotent, Nat.lxor_0_l. reflexivity. Qed.

Lemma todo_filter : forall n cnt me gs, todo n cnt me gs = filter (fun t => (t <? n) && negb (cnt t =? 0)) (map (Nat.lxor me) gs).
Proof.
  intros n cnt me gs. unfold todo. induction gs as [|g gs IH]; [reflexivity|]. cbn [flat_map map filter]. rewrite IH. unfold partner.
  destruct (n <=? Nat.lxor me g) eqn:E1; destruct (Nat.lxor me g <? n) eqn:E2; try lia; cbn [andb]; [reflexivity|].
  destruct (cnt (Nat.lxor me g) =? 0); reflexivity.
Qed.
Lemma wants_nodup : forall n cnt me p, NoDup (wants n cnt me p).
Proof.
  intros. unfold wants. rewrite todo_filter. apply NoDup_filter. unfold groups.
  apply FinFun.Injective_map_NoDup; [|apply seq_NoDup].
  intros a b H. rewrite <- (lxor_twice me a), H. apply lxor_twice.
Qed.
Lemma wants_in : forall n cnt me p t, n <= 2 ^ p -> me < n -> (In t (wants n cnt me p) <-> t < n /\ cnt t <> 0).
Proof.
  intros n cnt me p t Hp Hm. unfold wants. rewrite todo_filter, filter_In, in_map_iff. split.
  - intros [_ H]. lia.
  - intros [H1 H2]. split; [|lia]. exists (Nat.lxor me t). split; [apply lxor_twice|].
    apply in_seq. split; [lia|]. apply lxor_bound; lia.
Qed.

(* -------- invariant -------- *)
Section Inv.
Context {A : Type}.
Variables (x : a2a A) (p : nat) (rb : nat -> list A).
Let n := a_n x.
Hypothesis Hp : n <= 2 ^ p.
Hypothesis Hmatch : forall s d, s < n -> d < n -> a_rc x d s = a_sc x s d.
Hypothesis Hsend : forall s d, s < n -> d < n -> a_sd x s d + a_sc x s d <= length (a_sb x s).
Hypothesis Hrecv : forall s d, s < n -> d < n -> a_rd x d s + a_rc x d s <= length (rb d).
Hypothesis Hdisj : forall d s s' j, d < n -> s < n -> s' < n -> a_rd x d s <= j < a_rd x d s + a_rc x d s -> a_rd x d s' <= j < a_rd x d s' + a_rc x d s' -> s = s'.

Definition todo_r (i : nat) (pc : apc) : list nat := match pc with PRecv gs => todo n (a_rc x i) i gs | _ => [] end.
Definition todo_s (i : nat) (pc : apc) : list nat :=
  match pc with PRecv _ | PBar1 => wants n (a_sc x i) i p | PSend gs => todo n (a_sc x i) i gs | _ => [] end.
Definition got (D : list (nat * nat)) (i : nat) : list nat := map fst (filter (fun m => snd m =? i) D).
Definition gave (D : list (nat * nat)) (i : nat) : list nat := map snd (filter (fun m => fst m =? i) D).
Definition RP (D : list (nat * nat)) (i : nat) (r : arank A) : Prop :=
  Permutation (wants n (a_rc x i) i p) (got D i ++ ar_posted r ++ todo_r i (ar_pc r)).
Definition SP (D net : list (nat * nat)) (i : nat) (r : arank A) : Prop :=
  Permutation (wants n (a_sc x i) i p) (gave D i ++ gave net i ++ todo_s i (ar_pc r)).
Definition seg (s d : nat) : list A := firstn (a_sc x s d) (skipn (a_sd x s d) (a_sb x s)).
Definition buf_ok (D : list (nat * nat)) (i : nat) (buf : list A) : Prop :=
  length buf = length (rb i)
  /\ (forall s k, In (s, i) D -> k < a_rc x i s -> nth_error buf (a_rd x i s + k) = nth_error (a_sb x s) (a_sd x s i + k))
  /\ (forall j, (forall s, In (s, i) D -> ~ (a_rd x i s <= j < a_rd x i s + a_rc x i s)) -> nth_error buf j = nth_error (rb i) j).
Definition ainv (s : astate A) : Prop := length (as_ranks s) = n
  /\ Forall (fun m => fst (fst m) < n /\ snd (fst m) < n /\ snd m = seg (fst (fst m)) (snd (fst m))) (as_net s)
  /\ exists D, (forall i r, nth_error (as_ranks s) i = Some r ->
       RP D i r /\ SP D (map fst (as_net s)) i r /\ buf_ok D i (ar_buf r) /\ (in_bar2 (ar_pc r) = true -> ar_posted r = [])).

Lemma got_cons : forall D a b i, got ((a, b) :: D) i = if b =? i then a :: got D i else got D i.
Proof. intros. unfold got. cbn [filter snd]. destruct (b =? i); reflexivity. Qed.
Lemma gave_cons : forall D a b i, gave ((a, b) :: D) i = if a =? i then b :: gave D i else gave D i.
Proof. intros. unfold gave. cbn [filter fst]. destruct (a =? i); reflexivity. Qed.
Lemma gave_app : forall D E i, gave (D ++ E) i = gave D i ++ gave E i.
Proof. intros. unfold gave. rewrite filter_app, map_app. reflexivity. Qed.
Lemma got_in : forall D a i, In a (got D i) <-> In (a, i) D.
Proof.
  intros D a i. unfold got. rewrite in_map_iff. split.
  - intros ([a' b] & <- & H). apply filter_In in H. destruct H as [H1 H2]. cbn [snd fst] in *. replace i with b by lia. exact H1.
  - intros H. exists (a, i). split; [reflexivity|]. apply filter_In. split; [exact H|]. cbn. apply Nat.eqb_refl.
Qed.
Lemma gave_in : forall D a i, In a (gave D i) <-> In (i, a) D.
Proof.
  intros D a i. unfold gave. rewrite in_map_iff. split.
  - intros ([a' b] & <- & H). apply filter_In in H. destruct H as [H1 H2]. cbn [snd fst] in *. replace i with a' by lia. exact H1.
  - intros H. exists (i, a). split; [reflexivity|]. apply filter_In. split; [exact H|]. cbn. apply Nat.eqb_refl.
Qed.

Lemma seg_length : forall s d, s < n -> d < n -> length (seg s d) = a_sc x s d.
Proof. intros s d H1 H2. unfold seg. rewrite firstn_length, skipn_length. pose proof (Hsend s d H1 H2). lia. Qed.
Lemma seg_nth : forall s d k, k < a_sc x s d -> nth_error (seg s d) k = nth_error (a_sb x s) (a_sd x s d + k).
Proof.
  intros s d k H. unfold seg. generalize (a_sb x s) as l. intros l.
  assert (H1 : forall c (l : list A) k, k < c -> nth_error (firstn c l) k = nth_error l k).
  { clear. induction c as [|c IH]; intros l k H; [lia|]. destruct l; [destruct k; reflexivity|]. destruct k; [reflexivity|]. cbn. apply IH. lia. }
  rewrite H1 by exact H. clear. revert l. induction (a_sd x s d) as [|m IH]; intros l; [reflexivity|].
  destruct l; [destruct k; reflexivity|]. cbn. apply IH.
Qed.
Lemma splice_length : forall (b : list A) off d, off + length d <= length b -> length (splice b off d) = length b.
Proof. intros b off d H. unfold splice. rewrite !app_length, firstn_length, skipn_length. lia. Qed.
Lemma splice_in : forall (b : list A) off d k, off + length d <= length b -> k < length d -> nth_error (splice b off d) (off + k) = nth_error d k.
Proof.
  intros b off d k H Hk. unfold splice. rewrite nth_error_app2; rewrite firstn_length, Nat.min_l by lia; [|lia].
  rewrite nth_error_app1 by lia. f_equal. lia.
Qed.
Lemma skip_more : forall k off (b : list A), skipn (off + k) b = skipn k (skipn off b).
Proof. intros k. induction off as [|off IH]; intros b; [reflexivity|]. destruct b as [|a b]; [destruct k; reflexivity|]. cbn. apply IH. Qed.
Lemma splice_out : forall (b : list A) off d j, off + length d <= length b -> ~ (off <= j < off + length d) -> nth_error (splice b off d) j = nth_error b j.
Proof.
  intros b off d j H Hj. unfold splice. rewrite <- (firstn_skipn off b) at 3.
  destruct (lt_dec j off) as [H1|H1].
  - rewrite !nth_error_app1; rewrite ?firstn_length; try lia. reflexivity.
  - rewrite !(nth_error_app2 (firstn off b)); rewrite ?firstn_length; try lia.
    rewrite nth_error_app2 by lia. rewrite Nat.min_l by lia.
    rewrite skip_more.
    rewrite <- (firstn_skipn (length d) (skipn off b)) at 2. rewrite nth_error_app2; rewrite firstn_length, skipn_length; [|lia].
    f_equal. lia.
Qed.

Lemma ainv_start : ainv (a_start x p rb).
Proof.
  unfold ainv, a_start. cbn [as_ranks as_net]. split; [rewrite map_length, seq_length; reflexivity|]. split; [constructor|].
  exists []. intros i r Hi. 
  assert (Hi' : i < n /\ r = mkR (PRecv (groups p)) [] (rb i)).
  { assert (H : i < length (map (fun me => mkR (PRecv (groups p)) [] (rb me)) (seq 0 (a_n x)))) by (apply nth_error_Some; congruence).
    rewrite map_length, seq_length in H. split; [exact H|]. rewrite (nth_error_nth' _ (mkR PEnd [] [])) in Hi by (rewrite map_length, seq_length; exact H).
    injection Hi as <-. erewrite nth_indep; [|rewrite map_length, seq_length; exact H].
    rewrite (map_nth (fun me => mkR (PRecv (groups p)) [] (rb me)) (seq 0 (a_n x)) 0). rewrite seq_nth by exact H. reflexivity. }
  destruct Hi' as [_ ->]. unfold RP, SP, buf_ok. cbn. split; [apply Permutation_refl|]. split; [apply Permutation_refl|].
  split; [|discriminate]. split; [reflexivity|]. split; [intros s k []|auto].
Qed.

Lemma gave_snoc_other : forall D a b i, i <> a -> gave (D ++ [(a, b)]) i = gave D i.
Proof. intros D a b i H. rewrite gave_app, gave_cons. replace (a =? i) with false by lia. apply app_nil_r. Qed.
Lemma gave_snoc : forall D a b, gave (D ++ [(a, b)]) a = gave D a ++ [b].
Proof. intros D a b. rewrite gave_app, gave_cons, Nat.eqb_refl. reflexivity. Qed.

(* only the position of one rank changes *)
Lemma ainv_local : forall l1 r r' l2 net, ainv (mkS (l1 ++ r :: l2) net) ->
  ar_buf r' = ar_buf r -> (in_bar2 (ar_pc r') = true -> ar_posted r' = []) ->
  Permutation (ar_posted r ++ todo_r (length l1) (ar_pc r)) (ar_posted r' ++ todo_r (length l1) (ar_pc r')) ->
  todo_s (length l1) (ar_pc r') = todo_s (length l1) (ar_pc r) ->
  ainv (mkS (l1 ++ r' :: l2) net).
Proof.
  intros l1 r r' l2 net (Hl & Hnet & D & HD) Hb H2 H3 H4. unfold ainv. cbn [as_ranks as_net] in *.
  split; [rewrite app_length in *; exact Hl|]. split; [exact Hnet|]. exists D.
  eapply nth_upd; [exact HD| |auto]. intros (Hr & Hs & Hbuf & _). split; [|split; [|split; [|exact H2]]].
  - unfold RP in *. eapply Permutation_trans; [exact Hr|]. apply Permutation_app_head. exact H3.
  - unfold SP in *. rewrite H4. exact Hs.
  - rewrite Hb. exact Hbuf.
Qed.

Lemma got_new : forall l1 pc q1 src q2 buf l2 net, ainv (mkS (l1 ++ mkR pc (q1 ++ src :: q2) buf :: l2) net) ->
  src < n /\ length l1 < n.
Proof.
  intros l1 pc q1 src q2 buf l2 net (Hl & Hnet & D & HD). cbn [as_ranks] in *.
  assert (Hi : length l1 < n) by (rewrite app_length in Hl; cbn [length] in Hl; lia). split; [|exact Hi].
  destruct (HD _ _ (nth_mid _ _ _)) as (Hr & _). unfold RP in Hr. cbn [ar_posted] in Hr.
  assert (H : In src (wants n (a_rc x (length l1)) (length l1) p)).
  { eapply Permutation_in; [apply Permutation_sym; exact Hr|]. apply in_or_app. right. apply in_or_app. left. apply in_or_app. right. left. reflexivity. }
  apply wants_in in H; tauto.
Qed.

Lemma ainv_step : forall eager s s', ainv s -> astep x p eager s (Run s') -> ainv s'.
Proof.
  intros eager s s' H Hst. remember (Run s') as o eqn:Eo. destruct Hst as
    [l1 g gs posted buf l2 net t Ht | l1 g gs posted buf l2 net Ht | l1 posted buf l2 net | l1 posted buf l2 net Hf
    |l1 g gs posted buf l2 net t Ht Hb | l1 g gs posted buf l2 net t Ht Hb | l1 g gs posted buf l2 net Ht | l1 posted buf l2 net
    |l1 buf l2 net He | l1 posted buf l2 net Hf | l1 pc q1 src q2 buf l2 n1 d n2 Hn1 Hq1 Hd Hrd | l1 pc q1 src q2 buf l2 n1 d n2 Hn1 Hq1 Hd];
  try discriminate Eo; injection Eo as <-.
  - eapply ainv_local; [exact H|reflexivity|discriminate| |reflexivity]. cbn [ar_posted ar_pc todo_r todo flat_map].
    fold n in Ht. rewrite Ht, <- app_assoc. apply Permutation_refl.
  - eapply ainv_local; [exact H|reflexivity|discriminate| |reflexivity]. cbn [ar_posted ar_pc todo_r todo flat_map].
    fold n in Ht. rewrite Ht. apply Permutation_refl.
  - eapply ainv_local; [exact H|reflexivity|discriminate|apply Permutation_refl|reflexivity].
  - eapply ainv_local; [exact H|reflexivity|discriminate|apply Permutation_refl|reflexivity].
  - destruct H as (Hl & Hnet & D & HD). unfold ainv. cbn [as_ranks as_net] in *.
    assert (Hi : length l1 < n) by (rewrite app_length in Hl; cbn [length] in Hl; lia).
    split; [rewrite app_length in *; exact Hl|]. split.
    + apply Forall_app. split; [exact Hnet|]. constructor; [|constructor]. cbn [fst snd].
      split; [exact Hi|]. split; [|reflexivity]. unfold partner in Ht. fold n in Ht. destruct (n <=? Nat.lxor (length l1) g) eqn:E; [discriminate|].
      destruct (a_sc x (length l1) (Nat.lxor (length l1) g) =? 0); [discriminate|]. injection Ht as <-. lia.
    + exists D. rewrite map_app. cbn [map fst]. eapply nth_upd; [exact HD| |].
      * intros (Hr & Hs & Hbuf & H2). split; [exact Hr|]. split; [|split; [exact Hbuf|discriminate]].
        unfold SP in *. cbn [ar_pc todo_s] in *. rewrite gave_snoc, <- app_assoc. cbn [todo flat_map] in Hs. fold n in Ht. rewrite Ht in Hs. exact Hs.
      * intros i r Hi' (Hr & Hs & Hbuf & H2). split; [exact Hr|]. split; [|split; [exact Hbuf|exact H2]].
        unfold SP in *. rewrite gave_snoc_other by exact Hi'. exact Hs.
  - eapply ainv_local; [exact H|reflexivity|discriminate|apply Permutation_refl|]. cbn [ar_pc todo_s todo flat_map].
    fold n in Ht. rewrite Ht. reflexivity.
  - eapply ainv_local; [exact H|reflexivity|discriminate|apply Permutation_refl|reflexivity].
  - eapply ainv_local; [exact H|reflexivity|reflexivity|apply Permutation_refl|reflexivity].
  - eapply ainv_local; [exact H|reflexivity| |apply Permutation_refl|reflexivity].
    intros _. destruct H as (_ & _ & D & HD). cbn [as_ranks] in HD. destruct (HD _ _ (nth_mid _ _ _)) as (_ & _ & _ & H2). apply H2. reflexivity.
  - pose proof (got_new _ _ _ _ _ _ _ _ H) as [Hsrc Hi].
    destruct H as (Hl & Hnet & D & HD). unfold ainv. cbn [as_ranks as_net] in *.
    assert (Hdata : d = seg src (length l1)).
    { rewrite Forall_forall in Hnet. destruct (Hnet (src, length l1, d)) as (_ & _ & E); [apply in_or_app; right; left; reflexivity|exact E]. }
    assert (Hdl : length d = a_rc x (length l1) src) by (rewrite Hdata, seg_length, Hmatch; auto).
    destruct (HD _ _ (nth_mid _ _ _)) as (Hr0 & _ & Hb0 & _).
    assert (Hnew : ~ In (src, length l1) D).
    { intros Hin. apply got_in in Hin. unfold RP in Hr0. cbn [ar_posted] in Hr0.
      pose proof (Permutation_NoDup Hr0 (wants_nodup _ _ _ _)) as Hnd. rewrite <- app_assoc in Hnd.
      apply in_split in Hin. destruct Hin as (a & b & Hin). rewrite Hin in Hnd. rewrite <- app_assoc in Hnd. cbn [app] in Hnd.
      apply NoDup_remove_2 in Hnd. apply Hnd. rewrite !in_app_iff. cbn [In]. tauto. }
    split; [rewrite app_length in *; exact Hl|]. split.
    { apply Forall_app in Hnet. destruct Hnet as [Hn Hn']. inversion Hn'; subst. apply Forall_app. auto. }
    exists ((src, length l1) :: D).
    assert (HS : forall i r, SP D (map fst (n1 ++ (src, length l1, d) :: n2)) i r -> SP ((src, length l1) :: D) (map fst (n1 ++ n2)) i r).
    { intros i r. unfold SP. rewrite !map_app. cbn [map fst]. rewrite gave_cons, !gave_app, gave_cons. destruct (src =? i); [|auto].
      intros Hs. eapply Permutation_trans; [exact Hs|]. cbn [app]. rewrite <- !app_assoc.
      rewrite !(app_assoc (gave D i)). eapply Permutation_trans; [apply Permutation_app_head; cbn [app]; apply Permutation_refl|].
      apply Permutation_sym, Permutation_cons_app, Permutation_refl. }
    eapply nth_upd; [exact HD| |].
    + intros (Hr & Hs & Hbuf & H2). split; [|split; [|split]].
      * unfold RP in *. cbn [ar_posted ar_pc] in *. rewrite got_cons, Nat.eqb_refl. eapply Permutation_trans; [exact Hr|].
        rewrite <- !app_assoc, !(app_assoc (got D _)). cbn [app]. apply Permutation_sym, Permutation_cons_app. rewrite <- !app_assoc. apply Permutation_refl.
      * apply (HS _ _ Hs).
      * cbn [ar_buf] in *. destruct Hbuf as (B1 & B2 & B3). unfold buf_ok.
        assert (Hfit : a_rd x (length l1) src + length d <= length buf) by (rewrite B1, Hdl; apply Hrecv; assumption).
        split; [rewrite splice_length; assumption|]. split.
        -- intros s k [E|Hin] Hk.
           ++ injection E as <-. rewrite splice_in by lia. rewrite Hdata. apply seg_nth. rewrite <- Hmatch by assumption. exact Hk.
           ++ rewrite splice_out; [apply B2; assumption|exact Hfit|]. rewrite Hdl. intros Hin2.
              apply Hnew. replace src with s; [exact Hin|]. 
              assert (Hsn : s < n).
              { apply got_in in Hin. unfold RP in Hr0. assert (Hx : In s (wants n (a_rc x (length l1)) (length l1) p)) by (eapply Permutation_in; [apply Permutation_sym; exact Hr0|apply in_or_app; auto]).
                apply wants_in in Hx; tauto. }
              apply (Hdisj (length l1) s src (a_rd x (length l1) s + k)); auto; lia.
        -- intros j Hj. rewrite splice_out; [|exact Hfit|].
           ++ apply B3. intros s Hs0. apply Hj. right. exact Hs0.
           ++ rewrite Hdl. apply Hj. left. reflexivity.
      * cbn [ar_pc ar_posted] in *. intros E. specialize (H2 E). destruct q1; discriminate.
    + intros i r Hi' (Hr & Hs & Hbuf & H2). split; [|split; [|split; [|exact H2]]].
      * unfold RP in *. rewrite got_cons. replace (length l1 =? i) with false by lia. exact Hr.
      * apply HS. exact Hs.
      * destruct Hbuf as (B1 & B2 & B3). split; [exact B1|]. split.
        -- intros s k [E|Hin] Hk; [injection E as _ E; lia|auto].
        -- intros j Hj. apply B3. intros s Hs0. apply Hj. right. exact Hs0.
Qed.

Lemma ainv_reach : forall eager k s, aruns x p eager k (a_start x p rb) s -> ainv s.
Proof.
  intros eager k s H. remember (a_start x p rb) as s0 eqn:E. revert E. induction H as [s|k s1 s2 s3 H IH Hst]; intros E.
  - subst s. apply ainv_start.
  - apply (ainv_step eager s2); auto.
Qed.

Lemma partner_lt : forall cnt me g t, partner n cnt me g = Some t -> t < n.
Proof. intros cnt me g t. unfold partner. destruct (n <=? Nat.lxor me g) eqn:E; [discriminate|]. destruct (cnt (Nat.lxor me g) =? 0); [discriminate|]. intros H. injection H as <-. lia. Qed.

(* nothing undefined happens *)
Lemma ainv_safe : forall eager s, ainv s -> ~ astep x p eager s Bad.
Proof.
  intros eager s H Hst. remember (@Bad A) as o eqn:Eo. destruct Hst as
    [l1 g gs posted buf l2 net t Ht | l1 g gs posted buf l2 net Ht | l1 posted buf l2 net | l1 posted buf l2 net Hf
    |l1 g gs posted buf l2 net t Ht Hb | l1 g gs posted buf l2 net t Ht Hb | l1 g gs posted buf l2 net Ht | l1 posted buf l2 net
    |l1 buf l2 net He | l1 posted buf l2 net Hf | l1 pc q1 src q2 buf l2 n1 d n2 Hn1 Hq1 Hd Hrd | l1 pc q1 src q2 buf l2 n1 d n2 Hn1 Hq1 Hd];
  try discriminate Eo.
  - destruct H as (Hl & _ & _). cbn [as_ranks] in Hl. assert (Hi : length l1 < n) by (rewrite app_length in Hl; cbn [length] in Hl; lia).
    apply partner_lt in Ht. pose proof (Hsend (length l1) t Hi Ht). lia.
  - pose proof (got_new _ _ _ _ _ _ _ _ H) as [Hsrc Hi]. destruct H as (Hl & Hnet & D & HD). cbn [as_ranks as_net] in *.
    rewrite Forall_forall in Hnet. destruct (Hnet (src, length l1, d)) as (_ & _ & E); [apply in_or_app; right; left; reflexivity|].
    cbn [fst snd] in E. pose proof (seg_length src (length l1) Hsrc Hi) as Hsl. rewrite <- E, <- Hmatch in Hsl by assumption.
    destruct (HD _ _ (nth_mid _ _ _)) as (_ & _ & (Hb & _) & _). cbn [ar_buf] in Hb. pose proof (Hrecv src (length l1) Hsrc Hi). lia.
Qed.

(* a message can be received as soon as its receiver has entered the barrier *)
Lemma ainv_deliverable : forall s src dst d net r, ainv s -> as_net s = (src, dst, d) :: net -> nth_error (as_ranks s) dst = Some r -> in_bar1 (ar_pc r) = true ->
  In src (ar_posted r).
Proof.
  intros [ranks net'] src dst d net r (Hl & Hnet & D & HD) En Hr Hb. cbn [as_ranks as_net] in *. subst net'.
  inversion Hnet as [|m l (Hs & Hd & _) _]; subst. cbn [fst snd] in *.
  destruct (HD _ _ Hr) as (HR & _). destruct (nth_error ranks src) as [r0|] eqn:E; [|apply nth_error_None in E; lia].
  destruct (HD _ _ E) as (_ & HS & _). unfold SP in HS. cbn [map fst] in HS. rewrite gave_cons, Nat.eqb_refl in HS.
  assert (Hw : In dst (wants n (a_sc x src) src p)).
  { eapply Permutation_in; [apply Permutation_sym; exact HS|]. rewrite !in_app_iff. cbn [In]. auto. }
  assert (Hnd : ~ In dst (gave D src)).
  { intros Hin. pose proof (Permutation_NoDup HS (wants_nodup _ _ _ _)) as Hx. cbn [app] in Hx. apply NoDup_remove_2 in Hx. apply Hx. apply in_or_app. auto. }
  apply wants_in in Hw; [|exact Hp|exact Hs]. rewrite <- Hmatch in Hw by assumption.
  assert (Hw2 : In src (wants n (a_rc x dst) dst p)) by (apply wants_in; tauto).
  eapply Permutation_in in Hw2; [|exact HR]. rewrite !in_app_iff in Hw2. destruct Hw2 as [Hw2|[Hw2|Hw2]]; [|exact Hw2|].
  - exfalso. apply Hnd. apply gave_in. apply got_in. exact Hw2.
  - exfalso. destruct (ar_pc r); cbn in *; try contradiction; discriminate.
Qed.

Lemma find_pc : forall (f : apc -> bool) (l : list (arank A)), (exists l1 r l2, l = l1 ++ r :: l2 /\ f (ar_pc r) = true) \/ Forall (fun r => f (ar_pc r) = false) l.
Proof.
  intros f l. induction l as [|r l IH]; [right; constructor|]. destruct (f (ar_pc r)) eqn:E.
  - left. exists [], r, l. auto.
  - destruct IH as [(l1 & r0 & l2 & -> & H)|H]; [left; exists (r :: l1), r0, l2; auto|right; constructor; auto].
Qed.

Lemma ainv_progress : forall eager s, ainv s -> a_done s \/ exists s', astep x p eager s (Run s').
Proof.
  intros eager [ranks net] H. pose proof H as (Hl & Hnet & D & HD). cbn [as_ranks as_net] in *.
  destruct (find_pc (fun q => match q with PRecv _ | PSend _ => true | _ => false end) ranks) as [(l1 & [q posted buf] & l2 & -> & Hq)|Hq].
  { right. assert (Hi : length l1 < n) by (rewrite app_length in Hl; cbn [length] in Hl; lia). cbn [ar_pc] in Hq.
    destruct q as [[|g gs]| |[|g gs]| | |]; try discriminate.
    - eexists. apply as_enter1.
    - destruct (partner (a_n x) (a_rc x (length l1)) (length l1) g) as [t|] eqn:E; [eexists; eapply as_irecv; exact E|eexists; eapply as_rskip; exact E].
    - eexists. apply as_wait.
    - destruct (partner (a_n x) (a_sc x (length l1)) (length l1) g) as [t|] eqn:E; [|eexists; eapply as_sskip; exact E].
      eexists. eapply as_isend; [exact E|]. apply Hsend; [exact Hi|]. apply (partner_lt _ _ _ _ E). }
  assert (Hb1 : Forall (fun r => in_bar1 (ar_pc r) = true) ranks).
  { eapply Forall_impl; [|exact Hq]. intros r Hr. cbn beta in Hr. destruct (ar_pc r); try discriminate; reflexivity. }
  destruct (find_pc (fun q => match q with PBar1 => true | _ => false end) ranks) as [(l1 & [q posted buf] & l2 & -> & Hq1)|Hq1].
  { right. cbn [ar_pc] in Hq1. destruct q; try discriminate. eexists. apply as_leave1.
    apply Forall_app in Hb1. destruct Hb1 as [B1 B2]. inversion B2; subst. apply Forall_app. auto. }
  destruct net as [|[[src dst] d] net].
  - destruct (find_pc (fun q => match q with PWait => true | _ => false end) ranks) as [(l1 & [q posted buf] & l2 & -> & Hq2)|Hq2].
    + right. cbn [ar_pc] in Hq2. destruct q; try discriminate.
      assert (Hi : length l1 < n) by (rewrite app_length in Hl; cbn [length] in Hl; lia).
      destruct posted as [|src posted].
      * eexists. apply as_waited. right. constructor.
      * exfalso. destruct (got_new l1 PWait [] src posted buf l2 [] H) as [Hsrc _].
        destruct (HD _ _ (nth_mid _ _ _)) as (HR & _). unfold RP in HR. cbn [ar_posted ar_pc todo_r app] in HR.
        destruct (nth_error (l1 ++ mkR PWait (src :: posted) buf :: l2) src) as [r0|] eqn:E; [|apply nth_error_None in E; lia].
        destruct (HD _ _ E) as (_ & HS & _). unfold SP in HS. cbn [map] in HS.
        assert (Ht : todo_s src (ar_pc r0) = []).
        { apply nth_error_In in E. rewrite Forall_forall in Hq, Hq1. specialize (Hq _ E). specialize (Hq1 _ E). destruct (ar_pc r0); try discriminate; reflexivity. }
        rewrite Ht in HS. change (gave [] src) with (@nil nat) in HS. rewrite !app_nil_r in HS. cbn [app] in HS. rewrite ?app_nil_r in HS.
        assert (Hw : In src (wants n (a_rc x (length l1)) (length l1) p)).
        { eapply Permutation_in; [apply Permutation_sym; exact HR|]. rewrite !in_app_iff. cbn [In]. auto. }
        apply wants_in in Hw; [|exact Hp|exact Hi]. rewrite Hmatch in Hw by assumption.
        assert (Hw2 : In (length l1) (wants n (a_sc x src) src p)) by (apply wants_in; tauto).
        eapply Permutation_in in Hw2; [|exact HS]. apply gave_in, got_in in Hw2.
        pose proof (Permutation_NoDup HR (wants_nodup _ _ _ _)) as Hx. apply NoDup_remove_2 in Hx. apply Hx. apply in_or_app. auto.
    + assert (Hb2 : Forall (fun r => in_bar2 (ar_pc r) = true) ranks).
      { rewrite Forall_forall in *. intros r Hr. specialize (Hq _ Hr). specialize (Hq1 _ Hr). specialize (Hq2 _ Hr). cbn beta in *. destruct (ar_pc r); try discriminate; reflexivity. }
      destruct (find_pc (fun q => match q with PBar2 => true | _ => false end) ranks) as [(l1 & [q posted buf] & l2 & -> & Hq3)|Hq3].
      * right. cbn [ar_pc] in Hq3. destruct q; try discriminate. eexists. apply as_leave2.
        apply Forall_app in Hb2. destruct Hb2 as [B1 B2]. inversion B2; subst. apply Forall_app. auto.
      * left. unfold a_done. cbn [as_ranks]. rewrite Forall_forall in *. intros r Hr. specialize (Hb2 _ Hr). specialize (Hq3 _ Hr). cbn beta in *. destruct (ar_pc r); try discriminate; reflexivity.
  - right. inversion Hnet as [|m l (Hs & Hd & Hdata) _]; subst. cbn [fst snd] in *.
    destruct (nth_error ranks dst) as [r|] eqn:E; [|apply nth_error_None in E; lia].
    assert (Hin : In src (ar_posted r)).
    { eapply (ainv_deliverable (mkS ranks _)); [exact H|reflexivity|exact E|]. apply nth_error_In in E. rewrite Forall_forall in Hb1. auto. }
    destruct (HD _ _ E) as (HR & _ & (Hbl & _) & _). destruct r as [q posted buf]. cbn [ar_posted ar_pc ar_buf] in *.
    apply nth_error_split in E. destruct E as (l1 & l2 & -> & <-).
    apply in_split in Hin. destruct Hin as (q1 & q2 & ->).
    eexists. eapply (as_deliver x p eager l1 q q1 src q2 buf l2 [] _ net).
    + constructor.
    + unfold RP in HR. cbn [ar_posted] in HR. pose proof (Permutation_NoDup HR (wants_nodup _ _ _ _)) as Hx.
      rewrite <- app_assoc in Hx. cbn [app] in Hx. rewrite app_assoc in Hx. apply NoDup_remove_2 in Hx. intros Hin. apply Hx. rewrite !in_app_iff. auto.
    + rewrite Hdata, seg_length by assumption. rewrite Hmatch by assumption. lia.
    + rewrite Hbl. apply Hrecv; assumption.
Qed.

(* it comes to an end *)
Definition pw (q : apc) : nat :=
  match q with PRecv gs => length gs + 2 * 2 ^ p + 6 | PBar1 => 2 * 2 ^ p + 5 | PSend gs => 2 * length gs + 4 | PWait => 3 | PBar2 => 2 | PEnd => 0 end.
Definition amu (s : astate A) : nat := fold_right plus 0 (map (fun r => pw (ar_pc r)) (as_ranks s)) + length (as_net s).
Lemma amu_mid : forall l1 (r : arank A) l2, fold_right plus 0 (map (fun r => pw (ar_pc r)) (l1 ++ r :: l2))
  = fold_right plus 0 (map (fun r => pw (ar_pc r)) l1) + pw (ar_pc r) + fold_right plus 0 (map (fun r => pw (ar_pc r)) l2).
Proof. induction l1 as [|a l1 IH]; intros r l2; cbn [app map fold_right]; [lia|]. rewrite IH. lia. Qed.
Lemma amu_step : forall eager s s', astep x p eager s (Run s') -> amu s' < amu s.
Proof.
  intros eager s s' Hst. remember (Run s') as o eqn:Eo. destruct Hst; try discriminate Eo; injection Eo as <-;
  unfold amu; cbn [as_ranks as_net]; rewrite !amu_mid; cbn [ar_pc pw]; rewrite ?app_length; cbn [length]; unfold groups; rewrite ?seq_length; lia.
Qed.
Lemma amu_start : amu (a_start x p rb) = n * (3 * 2 ^ p + 6).
Proof.
  assert (Hc : forall w m st, fold_right plus 0 (map (fun _ : nat => w) (seq st m)) = m * w).
  { clear. intros w. induction m as [|m IH]; intros st; [reflexivity|]. cbn [seq map fold_right]. rewrite IH. lia. }
  unfold amu, a_start. cbn [as_ranks as_net length]. rewrite map_map. cbn [ar_pc pw]. unfold groups. rewrite seq_length, Hc. fold n. lia.
Qed.
Lemma amu_runs : forall eager k s1 s2, aruns x p eager k s1 s2 -> amu s2 + k <= amu s1.
Proof. intros eager k s1 s2 H. induction H as [s|k s1 s2 s3 H IH Hst]; [lia|]. apply amu_step in Hst. lia. Qed.

Lemma ainv_final : forall s, ainv s -> a_done s -> as_net s = [] /\
  forall i r, nth_error (as_ranks s) i = Some r ->
    length (ar_buf r) = length (rb i)
    /\ (forall s k, s < n -> k < a_rc x i s -> nth_error (ar_buf r) (a_rd x i s + k) = nth_error (a_sb x s) (a_sd x s i + k))
    /\ (forall j, (forall s, s < n -> ~ (a_rd x i s <= j < a_rd x i s + a_rc x i s)) -> nth_error (ar_buf r) j = nth_error (rb i) j).
Proof.
  intros [ranks net] H Hd. pose proof H as (Hl & Hnet & D & HD). unfold a_done in Hd. cbn [as_ranks as_net] in *. rewrite Forall_forall in Hd. split.
  - destruct net as [|[[src dst] d] net]; [reflexivity|]. exfalso. inversion Hnet as [|m l (_ & Hdst & _) _]; subst. cbn [fst snd] in *.
    destruct (nth_error ranks dst) as [r|] eqn:E; [|apply nth_error_None in E; lia].
    pose proof (Hd r (nth_error_In _ _ E)) as Hr. destruct (HD _ _ E) as (_ & _ & _ & H2). rewrite Hr in H2. specialize (H2 eq_refl).
    assert (Hin : In src (ar_posted r)) by (eapply (ainv_deliverable (mkS ranks _)); [exact H|reflexivity|exact E|rewrite Hr; reflexivity]).
    rewrite H2 in Hin. exact Hin.
  - intros i r Hi. destruct (HD _ _ Hi) as (HR & _ & (B1 & B2 & B3) & H2). rewrite (Hd r (nth_error_In _ _ Hi)) in H2. specialize (H2 eq_refl).
    unfold RP in HR. rewrite H2, (Hd r (nth_error_In _ _ Hi)) in HR. cbn [todo_r app] in HR. rewrite app_nil_r in HR.
    assert (Hin : i < n) by (rewrite <- Hl; apply nth_error_Some; congruence).
    assert (HDin : forall s, In (s, i) D <-> s < n /\ a_rc x i s <> 0).
    { intros s. rewrite <- got_in. rewrite <- (wants_in n (a_rc x i) i p s Hp Hin). split; apply Permutation_in; [apply Permutation_sym|]; exact HR. }
    split; [exact B1|]. split.
    + intros s k Hs Hk. apply B2; [|exact Hk]. apply HDin. split; [exact Hs|lia].
    + intros j Hj. apply B3. intros s Hs. apply Hj. apply HDin in Hs. tauto.
Qed.
End Inv.
