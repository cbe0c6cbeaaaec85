(* Collective reads and writes: the calls. *)
From Coq.Strings Require Import Byte String.
From Coq Require Import List ZArith Lia Bool ZifyBool ZifyNat.
From Verif Require Import Base BaseFacts Dtype Cast Array FS Fmt Attr Block Spec SeekFacts FSFacts ArrayFacts ConvFacts WriteFacts ReadFacts
  OpenFacts Par MpiSpec ParFacts SyncFacts VecFacts CollFacts Mpi SegFacts StepFacts HistFacts AggFacts LoopFacts ThrFacts LeadFacts.
Import ListNotations.
Open Scope Z_scope.
Ltac Zify.zify_post_hook ::= Z.div_mod_to_equations.

Section Call.
Variables (N : nat) (me : endian) (e : nat -> env) (b : nat -> block) (p : nat -> bptr) (sizes : list Z) (w : Z) (base dt : bytes) (nm o : Z) (n : nat -> Z).
Hypothesis HN : (0 < N)%nat.
Hypothesis HC : coll_ok N me e b p sizes w base dt nm o n.
Variables (a : nat -> array) (um : nat -> mem) (thr conc : Z) (id : list (nat * Z)).
Hypothesis Hthr : 0 <= thr.
Hypothesis Hsmall : zsum (map n (seq 0 N)) < 2 ^ 31 \/ forall i, (i < N)%nat -> thr + n i < 2 ^ 31.
Hypothesis Hdims : forall i, (i < N)%nat -> znth (a_dims (a i)) 0 = Some (n i).
Notation total := (zsum (map n (seq 0 N))).
Notation world := (mkComm id (seq 0 N)).
Definition ngroup : Z := if conc <=? 0 then Z.of_nat N else conc.
Definition alimit : Z := let l := total / ngroup in let l := if l <=? 0 then 1 else l in if thr <? l then thr else l.
Notation seg := (segn N n alimit ngroup).

Lemma alimit_range : 0 <= alimit <= thr.
Proof. unfold alimit. destruct (total / ngroup <=? 0) eqn:E1; cbv zeta; [destruct (thr <? 1) eqn:E2|destruct (thr <? total / ngroup) eqn:E2]; lia. Qed.
Lemma c_total : 0 <= total < 2 ^ 63.
Proof.
  split; [|eapply t_total; eauto]. apply zsum_nonneg. apply Forall_map. apply Forall_forall. intros j Hj. apply in_seq in Hj. eapply t_n; [exact HC|]. lia.
Qed.
Lemma c_small : zsum (map n (seq 0 N)) < 2 ^ 31 \/ forall i, (i < N)%nat -> alimit + n i < 2 ^ 31.
Proof. pose proof alimit_range. destruct Hsmall as [H1|H1]; [left; exact H1|right]. intros i Hi. specialize (H1 i Hi). lia. Qed.

Notation U := (usum N n seg).
Ltac from_t H := eapply H; eauto; pose proof alimit_range; lia.
Lemma c_n i : (i < N)%nat -> 0 <= n i. Proof. eapply t_n; exact HC. Qed.
Lemma c_empty i : (i < N)%nat -> n i = 0 -> seg i = Z.of_nat N + 1. Proof. intros; from_t t_empty. Qed.
Lemma c_data i : (i < N)%nat -> 0 < n i -> 0 <= seg i < Z.of_nat N. Proof. intros; from_t t_data. Qed.
Lemma c_mono i j : (i <= j)%nat -> (j < N)%nat -> 0 < n i -> 0 < n j -> seg i <= seg j. Proof. intros; from_t t_mono. Qed.
Lemma c_range i : (i < N)%nat -> 0 <= seg i <= Z.of_nat N + 1. Proof. intros; from_t t_range. Qed.
Lemma c_U s : U (s + 1) = U s + ssum N n seg s. Proof. from_t t_U. Qed.
Lemma c_Umono s s' : s <= s' -> U s <= U s'. Proof. intros; from_t t_Umono. Qed.
Lemma c_U0 : U 0 = 0. Proof. from_t t_U0. Qed.
Lemma c_Uall : U (Z.of_nat N + 2) = total. Proof. from_t t_Uall. Qed.
Lemma c_o : 0 <= o <= zsum sizes. Proof. eapply t_o; eauto. Qed.
Lemma c_crossing : zsum sizes < o + total -> exists x, U x <= zsum sizes - o < U (x + 1). Proof. intros; from_t t_crossing. Qed.
Lemma c_landing s : 0 <= s <= Z.of_nat N + 1 -> o + total <= zsum sizes -> landing sizes o (U s) = o + U s. 
Proof.
  intros Hs H. pose proof (c_Umono s (Z.of_nat N + 2) ltac:(lia)) as M. rewrite c_Uall in M. unfold landing. replace (o + U s <=? zsum sizes) with true by lia. reflexivity.
Qed.

Lemma offs_eq i : (i < N)%nat -> u64 (zsum (firstn (rank_in world i) (map n (seq 0 N)))) = offs n i.
Proof.
  intros Hi. unfold rank_in. cbn [c_mem]. rewrite index_seq by auto. rewrite firstn_map.
  assert (E : firstn i (seq 0 N) = seq 0 i). { replace N with (i + (N - i))%nat by lia. rewrite seq_app, firstn_app, seq_length, Nat.sub_diag, firstn_O, app_nil_r. apply firstn_all2. rewrite seq_length. lia. }
  rewrite E. change (zsum (map n (seq 0 i))) with (offs n i).
  assert (R : 0 <= offs n i <= total).
  { assert (Hn : forall j, (j < N)%nat -> 0 <= n j) by (intros j; eapply t_n; exact HC). unfold offs. replace N with (i + (N - i))%nat by lia. rewrite seq_app, map_app, zsum_app.
    assert (0 <= zsum (map n (seq 0 i)) /\ 0 <= zsum (map n (seq (0 + i) (N - i)))); [|lia].
    split; apply zsum_nonneg; apply Forall_map; apply Forall_forall; intros j Hj; apply in_seq in Hj; apply Hn; lia. }
  pose proof c_total. rewrite u64_id; lia.
Qed.

Definition finish (i : nat) (st : Z * block * mem) : M (Z * block * bptr * mem) :=
  (let '(rt, b1, um1) := st in
   rt <- agree world i rt ;;
   if rt =? 0 then '(_, p1) <- local (big_block_seek_rel b1 (p i) total) ;; mret (rt, b1, p1, um1) else mret (rt, b1, p i, um1))%prog.
Lemma call_head act f Q :
  (forall sg ld, segs_ok N n alimit ngroup sg ld -> leads N [] (fun i => mbind (segments act (e i) i (sg i) (p i) (offs n i) (n i) (a i) (sg_start (sg i))
    (Z.to_nat (sg_end (sg i) - sg_start (sg i))) (0, b i, um i)) (finish i)) f Q) ->
  leads N [] (fun i => throttle act thr (e i) world i (b i) (p i) (a i) (um i) conc) f Q.
Proof.
  intros H. pose proof (world_family N id HN) as HF. pose proof c_total as HT. unfold throttle.
  apply leads_does with (fun l res f' => l = [] /\ f' = f /\ res = n).
  { apply does_ext with (fun i => mret (n i)); [intros i Hi _; rewrite Hdims by auto; reflexivity|]. apply (does_ret N (fun _ => true) n). auto. }
  intros l res f' (-> & -> & ->). cbn [app].
  apply leads_does with (fun l res f' => l = [] /\ f' = f /\ forall i, (i < N)%nat -> res i = (total, map n (seq 0 N), offs n i)).
  { unfold collect_sizes. apply does_bind with (fun l res f' => l = [] /\ f' = f /\ res = fun _ => total).
    { apply does_allreduce with (C := fun _ => world) (r := fun _ => total); auto. intros i Hi _. cbn [c_mem reduce1]. cbn [in_range]. replace ((- 2 ^ 63 <=? total) && (total <? 2 ^ 63)) with true by lia. reflexivity. }
    intros l res f' (-> & -> & ->). cbn [app].
    apply does_bind with (fun l res f' => l = [] /\ f' = f /\ res = fun _ => map n (seq 0 N)).
    { apply does_allgather with (C := fun _ => world); auto. }
    intros l res f' (-> & -> & ->). apply does_ret. split; [reflexivity|]. split; [reflexivity|]. intros i Hi. rewrite offs_eq by auto. reflexivity. }
  intros l res f' (-> & -> & HR). cbn [app].
  apply leads_ext with (fun i => mbind (segmenter_init world i (map n (seq 0 N)) (map n (seq 0 N)) alimit ngroup) (fun sg =>
    mbind (segments act (e i) i sg (p i) (offs n i) (n i) (a i) (sg_start sg) (Z.to_nat (sg_end sg - sg_start sg)) (0, b i, um i)) (finish i))).
  { intros i Hi. rewrite HR by auto. cbv beta iota zeta. rewrite u64_id by lia. unfold ntask. cbn [c_mem]. unfold zlen. rewrite seq_length. reflexivity. }
  apply leads_does with (fun l res f' => l = [] /\ f' = f /\ exists ld, segs_ok N n alimit ngroup res ld).
  { apply segmenter_does; [eapply t_n; exact HC|lia|apply alimit_range|exact HN|]. intros sg ld HSG. split; [reflexivity|]. split; [reflexivity|]. exists ld. exact HSG. }
  intros l res' f' (-> & -> & ld & HSG). cbn [app]. exact (H res' ld HSG).
Qed.

Lemma finish_leads l st f (Q : (nat -> Z * block * bptr * mem) -> fs -> Prop) : (forall i, (i < N)%nat -> has_layout (st_b (st i)) sizes) -> (forall i, (i < N)%nat -> rts st i = 0 \/ rts st i = -1) ->
  (forall rc p', (rc = 0 \/ rc = -1) -> (rc = 0 <-> forall i, (i < N)%nat -> rts st i = 0) ->
     (forall i, (i < N)%nat -> rc = 0 -> o + total <= zsum sizes -> ptr_at sizes (p' i) (o + total)) -> (forall i, (i < N)%nat -> rc <> 0 -> p' i = p i) ->
     exists E : fs -> fs -> Prop, (forall f, E f f) /\ (forall f g h, E f g -> E g h -> E f h) /\ (forall f g, E f g -> E g f) /\
       good E l /\ forall g, E f g -> Q (fun i => (rc, st_b (st i), p' i, st_um (st i))) g) ->
  leads N l (fun i => finish i (st i)) f Q.
Proof.
  intros HL Hrt H. pose proof (world_family N id HN) as HF. pose proof c_total as HT. pose proof (co_end _ _ _ _ _ _ _ _ _ _ _ _ HC) as He.
  set (rc := verdict world (rts st)).
  assert (Hrc : rc = 0 \/ rc = -1).
  { unfold rc, verdict. destruct (last_bad (c_mem world) (rts st)) as [j|] eqn:El; [|auto]. apply last_bad_in in El. apply Hrt. destruct El as [El _]. cbn [c_mem] in El. apply in_seq in El. lia. }
  assert (Hz : rc = 0 <-> forall i, (i < N)%nat -> rts st i = 0).
  { unfold rc. rewrite verdict_zero. cbn [c_mem]. split; intros X i Hi; apply X; [apply in_seq; lia|apply in_seq in Hi; lia]. }
  set (p' := fun i => if rc =? 0 then match big_block_seek_rel (st_b (st i)) (p i) total with Ret (_, q) => q | _ => p i end else p i).
  assert (Hseek : forall i, (i < N)%nat -> exists rr, big_block_seek_rel (st_b (st i)) (p i) total = Ret (rr, match big_block_seek_rel (st_b (st i)) (p i) total with Ret (_, q) => q | _ => p i end) /\
    (o + total <= zsum sizes -> ptr_at sizes (match big_block_seek_rel (st_b (st i)) (p i) total with Ret (_, q) => q | _ => p i end) (o + total))).
  { intros i Hi. pose proof (co_ptr _ _ _ _ _ _ _ _ _ _ _ _ HC i Hi) as Hp. pose proof (pa_range _ _ _ Hp) as Ho. pose proof (zsum_range _ _ (HL i Hi)).
    destruct (seek_rel_moves _ _ _ _ total (HL i Hi) Hp ltac:(lia) ltac:(lia)) as [A B].
    destruct (Z_le_gt_dec (o + total) (zsum sizes)) as [L|L]; [destruct (A ltac:(lia)) as (q & E & Hq); rewrite E; eauto|]. rewrite (B ltac:(lia)). exists (-1). split; [reflexivity|lia]. }
  destruct (H rc p' Hrc Hz) as (E & E1 & E2 & E3 & G & HQ).
  { intros i Hi R Ho. unfold p'. rewrite R. change (0 =? 0) with true. cbv iota. destruct (Hseek i Hi) as (rr & _ & X). apply X. exact Ho. }
  { intros i Hi R. unfold p'. replace (rc =? 0) with false by lia. reflexivity. }
  apply leads_ext with (fun i => mbind (agree world i (rts st i)) (fun rt => if rt =? 0 then mbind (local (big_block_seek_rel (st_b (st i)) (p i) total)) (fun '(_, p1) => mret (rt, st_b (st i), p1, st_um (st i)))
     else mret (rt, st_b (st i), p i, st_um (st i)))).
  { intros i Hi. unfold finish, rts, st_rt, st_b, st_um. destruct (st i) as [[x y] z]. reflexivity. }
  apply (leads_agree N id HN E E1 E2 E3); [exact G|]. intros g res Eg HR.
  apply leads_ext with (fun i => mret (rc, st_b (st i), p' i, st_um (st i))).
  { intros i Hi. rewrite HR by auto. fold rc. unfold p'. destruct (rc =? 0) eqn:Er; [|reflexivity]. destruct (Hseek i Hi) as (rr & E0 & _). rewrite E0. reflexivity. }
  apply leads_ret. apply HQ. exact Eg.
Qed.

(* ------------------------------------------------------------- the write *)
Section Write.
Variables (d : nat -> bytes) (um1 : nat -> mem) (f0 : fs).
Hypothesis Hconv : forall i, (i < N)%nat -> exists rc lb1 il' ia',
  dtype_convert (e_me (e i)) (fresh (e i) (itemsize (e_me (e i)) (b_dtype (b i)) * b_nmemb (b i) * n i)) (iter_init (e_me (e i)) (chunk_array (e_me (e i)) (b i) (n i))) (um i) (iter_init (e_me (e i)) (a i))
    (Z.to_nat (n i * b_nmemb (b i))) = Ret (rc, lb1, il', um1 i, ia') /\ load lb1 0 (Z.to_nat (n i * w)) = Some (d i).
Notation rows := (rows_by w n d).
Notation fine := (in_range_write N sizes base o n f0).

Lemma call_write : fenced N (fun i => throttle AWrite thr (e i) world i (b i) (p i) (a i) (um i) conc) f0 (fun l res f' =>
  exists sg ld rc, segs_ok N n alimit ngroup sg ld /\ (rc = 0 \/ rc = -1) /\
    (forall i, (i < N)%nat -> exists b' p' um', res i = (rc, b', p', um') /\ like (b i) b' /\ wblock (e i) b' sizes w /\ (um' = um i \/ um' = um1 i) /\
       (rc = 0 -> ptr_at sizes p' (o + total)) /\ (rc <> 0 -> p' = p i) /\ (fine -> b' = after_write N b sizes w o n alimit ngroup ld d i /\ um' = um1 i)) /\
    same_files f0 f' /\ (forall j x, In (j, x) l -> some_write x) /\
    (zsum sizes < o + total -> rc = -1) /\ (rc = 0 -> fine) /\
    (forall j x, In (j, x) l -> row_write base sizes w o (o + total) x) /\ (o + total <= zsum sizes -> good fs_eq l) /\
    (fine -> rc = 0 /\ fs_eq f' (put_rows f0 base sizes w o (flat_map rows (seq 0 N))))).
Proof.
  intros Q HQ. apply call_head. intros sg ld HSG. pose proof alimit_range as HLm. pose proof c_small as HSm.
  assert (Hn : forall i, (i < N)%nat -> 0 <= n i) by (eapply t_n; exact HC). pose proof c_total as HT.
  pose proof c_empty as Te. pose proof c_data as Td. pose proof c_mono as Tm.
  eapply leads_does.
  { apply does_ran. apply (segments_does N AWrite e p n a sg (offs n) (so_group _ _ _ _ _ _ HSG) (so_uniform _ _ _ _ _ _ HSG)) with (Inv := winv N e b sizes w base o n um alimit ngroup ld d um1 f0) (s0 := 0) (s1 := Z.of_nat N + 2).
    - intros i j Hi Hj E. rewrite !(so_seg _ _ _ _ _ _ HSG) in E by auto. apply (so_members _ _ _ _ _ _ HSG); auto.
    - intros i Hi. pose proof (so_bounds _ _ _ _ _ _ HSG i Hi). rewrite (so_seg _ _ _ _ _ _ HSG) by auto. lia.
    - intros s l st st' f. eapply winv_ext.
    - intros s l st f. eapply winv_agree; eauto.
    - intros s l st f Hw Hs. eapply winv_skip; eauto; [lia|]. intros i Hi E. apply Hs; auto. rewrite (so_seg _ _ _ _ _ _ HSG) by auto. exact E.
    - intros s l st f Hw Hex Hz. apply does_set with (fun i => seg i =? s). { intros i Hi. rewrite (so_seg _ _ _ _ _ _ HSG) by auto. reflexivity. }
      eapply does_mono; [|eapply (winv_run N me e b p sizes w base dt nm o n HN HC a um alimit ngroup ltac:(lia) HSm sg ld HSG d um1 f0 Hconv s l st f Hw)].
      + cbv beta. intros l' st' f' X. eapply winv_ext; [|exact X]. intros i Hi. cbv beta. rewrite (so_seg _ _ _ _ _ _ HSG) by auto. reflexivity.
      + destruct Hex as (i & Hi & E). rewrite (so_seg _ _ _ _ _ _ HSG) in E by auto. eauto.
      + intros i Hi E. apply Hz; auto. rewrite (so_seg _ _ _ _ _ _ HSG) by auto. exact E.
    - intros i Hi. pose proof (so_bounds _ _ _ _ _ _ HSG i Hi). lia.
    - lia.
    - constructor.
      + intros i Hi. left. reflexivity.
      + intros i Hi _. split; reflexivity.
      + intros i Hi. split; [apply like_refl|]. split; [apply (co_block _ _ _ _ _ _ _ _ _ _ _ _ HC i Hi)|left; reflexivity].
      + apply same_files_refl.
      + intros j x [].
      + intros G. split; [intros; reflexivity|]. split; [rewrite (upto_zero N n _ Hn Te Td Tm); apply fs_eq_refl|].
        intros i Hi Hs. pose proof (segn_range N n alimit ngroup Hn ltac:(lia) ltac:(lia) i Hi). lia.
      + intros x Hx Hs. exfalso. pose proof (c_Umono (x + 1) 0 ltac:(lia)) as M. rewrite (c_U0) in M.
        pose proof c_o. lia.
      + intros _ _ q j x Hq. rewrite c_U0 in Hq. lia. }
  cbv beta. intros l st f' (HW & HRan). destruct HW as [W1 W2 W3 W4 W5 W6 W7 W8].
  assert (Log : forall j x, In (j, x) l -> some_write x) by (intros j x Hj; destruct (W5 j x Hj) as (_ & _ & _ & RW); eapply row_write_some; eauto).
  apply finish_leads; [intros i Hi; apply W3; exact Hi|exact W1|]. intros rc p' Hrc Hz Hp1 Hp2. apply HQ; [exact HRan|]. exists sg, ld, rc. split; [exact HSG|]. split; [exact Hrc|].
  assert (Out : zsum sizes < o + total -> rc = -1).
  { intros Ho. destruct Hrc as [R|R]; [|exact R]. exfalso. destruct (c_crossing Ho) as (x & Hx).
    destruct (W7 x Hx) as (i & Hi & Z0); [|apply Z0; apply Hz; auto].
    destruct (Z_lt_le_dec x (Z.of_nat N + 2)) as [L|L]; [exact L|exfalso].
    pose proof (c_Umono (Z.of_nat N + 2) x ltac:(lia)) as M1. rewrite (c_Uall) in M1. lia. }
  split; [|split; [exact W4|split; [exact Log|split; [exact Out|split; [|split; [|split]]]]]].
  - intros i Hi. destruct (W3 i Hi) as (A & B & D). exists (st_b (st i)), (p' i), (st_um (st i)). split; [reflexivity|]. split; [exact A|]. split; [exact B|]. split; [exact D|].
    split; [|split; [apply Hp2; exact Hi|]].
    + intros R. apply Hp1; auto. destruct (Z_le_gt_dec (o + total) (zsum sizes)) as [L|L]; [exact L|]. specialize (Out ltac:(lia)). lia.
    + intros G. destruct (W6 G) as (_ & _ & X). rewrite X; auto. pose proof (segn_range N n alimit ngroup Hn ltac:(lia) ltac:(lia) i Hi). lia.
  - intros R. assert (G : o + total <= zsum sizes) by (destruct (Z_le_gt_dec (o + total) (zsum sizes)) as [L|L]; [exact L|specialize (Out ltac:(lia)); lia]).
    split; [exact G|]. assert (Z0 : forall i, (i < N)%nat -> rts st i = 0) by (apply Hz; exact R). specialize (W8 Z0 G). rewrite c_Uall in W8. exact W8.
  - intros j x Hj. destruct (W5 j x Hj) as (L1 & D1 & P1 & R1). pose proof (segn_range N n alimit ngroup Hn ltac:(lia) ltac:(lia) j L1) as S1. 
    pose proof (c_Umono 0 (seg j) ltac:(lia)) as M1. rewrite c_U0 in M1. pose proof (c_Umono (seg j + 1) (Z.of_nat N + 2) ltac:(lia)) as M2. rewrite c_Uall, c_U in M2. eapply row_write_sub; [| |exact R1]; unfold landing; destruct (_ <=? _); lia.
  - intros G1. split.
    + intros i x Hi. destruct (Log i x Hi) as (q & pos & ll & ->). apply op_write_respects.
    + intros i x j y Hi Hj Hne. destruct (W5 i x Hi) as (L1 & D1 & P1 & R1). destruct (W5 j y Hj) as (L2 & D2 & P2 & R2). pose proof (co_block _ _ _ _ _ _ _ _ _ _ _ _ HC i L1) as WB. pose proof (wb_layout _ _ _ _ WB) as HL.
      pose proof (segn_range N n alimit ngroup Hn ltac:(lia) ltac:(lia) i L1) as S1. pose proof (segn_range N n alimit ngroup Hn ltac:(lia) ltac:(lia) j L2) as S2.
      rewrite (c_landing _ S1 G1) in R1. rewrite (c_landing _ S2 G1) in R2.
      eapply row_writes_commute; [..|exact R1|exact R2|].
      * apply HL.
      * apply HL.
      * apply (wb_wpos _ _ _ _ WB).
      * assert (Ne : seg i <> seg j). { intros E. destruct (t_same N n alimit ngroup sg ld HSG i j L1 L2 E) as (_ & _ & X). congruence. }
        rewrite <- !Z.add_assoc, <- !(c_U).
        destruct (Z_lt_le_dec (seg i) (seg j)) as [L|L]; [left; pose proof (c_Umono (seg i + 1) (seg j) ltac:(lia)); lia|
          right; pose proof (c_Umono (seg j + 1) (seg i) ltac:(lia)); lia].
  - intros G. destruct (W6 G) as (A & B & _). split; [apply Hz; exact A|]. rewrite (upto_all N n _ Hn Te Td Tm) in B. exact B.
Qed.
End Write.

(* -------------------------------------------------------------- the read *)
Section Read.
Variables (f0 : fs) (okd : nat -> bytes -> Prop) (post : nat -> bytes -> mem -> Prop) (R : nat -> list bytes).
Hypothesis Hconv : forall i d lb1, (i < N)%nat -> zlen d = n i * w -> okd i d -> load lb1 0 (Z.to_nat (n i * w)) = Some d -> exists rc um' ia' lb' il',
  dtype_convert (e_me (e i)) (um i) (iter_init (e_me (e i)) (a i)) lb1 (iter_init (e_me (e i)) (chunk_array (e_me (e i)) (b i) (n i))) (Z.to_nat (n i * b_nmemb (b i))) = Ret (rc, um', ia', lb', il') /\ post i d um'.
Notation there := (all_there N sizes w base o n f0 R).
Hypothesis Hok : (forall i d, (i < N)%nat -> zlen d = n i * w -> okd i d) \/ (there /\ forall i, (i < N)%nat -> okd i (concat (R i))).

Lemma c_crossing2 z : 0 <= z < total -> exists x, 0 <= x <= Z.of_nat N + 1 /\ U x <= z < U (x + 1).
Proof.
  intros Hz. destruct (crossing N n seg c_n c_empty c_data c_mono z Hz) as (x & Hx). exists x. split; [|exact Hx].
  destruct (Z_lt_le_dec x 0) as [L|L]; [pose proof (c_Umono (x + 1) 0 ltac:(lia)); rewrite c_U0 in *; lia|].
  destruct (Z_lt_le_dec (Z.of_nat N + 1) x) as [M|M]; [pose proof (c_Umono (Z.of_nat N + 2) x ltac:(lia)); rewrite c_Uall in *; lia|lia].
Qed.

Lemma call_read : fenced N (fun i => throttle ARead thr (e i) world i (b i) (p i) (a i) (um i) conc) f0 (fun l res f' =>
  f' = f0 /\ (forall j x, In (j, x) l -> some_read x) /\ exists rc, (rc = 0 \/ rc = -1) /\
    (forall i, (i < N)%nat -> exists p' um', res i = (rc, b i, p', um') /\ (rc = 0 -> ptr_at sizes p' (o + total)) /\ (rc <> 0 -> p' = p i) /\
       ((um' = um i /\ rc <> 0) \/ exists d, zlen d = n i * w /\ okd i d /\ post i d um' /\ (there -> d = concat (R i)))) /\
    (zsum sizes < o + total -> rc = -1) /\
    ((exists q, o <= q < o + total /\ stored_row f0 base sizes w q = None) -> rc = -1) /\
    (there -> rc = 0)).
Proof.
  intros Q HQ. apply call_head. intros sg ld HSG. pose proof alimit_range as HLm. pose proof c_small as HSm. pose proof c_n as Hn. pose proof c_total as HT. pose proof c_o as Ho.
  eapply leads_does.
  { apply does_ran. apply (segments_does N ARead e p n a sg (offs n) (so_group _ _ _ _ _ _ HSG) (so_uniform _ _ _ _ _ _ HSG)) with (Inv := rinv N b sizes w base o n um alimit ngroup f0 okd post R) (s0 := 0) (s1 := Z.of_nat N + 2).
    - intros i j Hi Hj E. rewrite !(so_seg _ _ _ _ _ _ HSG) in E by auto. apply (so_members _ _ _ _ _ _ HSG); auto.
    - intros i Hi. pose proof (so_bounds _ _ _ _ _ _ HSG i Hi). rewrite (so_seg _ _ _ _ _ _ HSG) by auto. lia.
    - intros s l st st' f. eapply rinv_ext.
    - intros s l st f. eapply rinv_agree; eauto.
    - intros s l st f Hw Hs. eapply rinv_skip; eauto; [lia|]. intros i Hi E. apply Hs; auto. rewrite (so_seg _ _ _ _ _ _ HSG) by auto. exact E.
    - intros s l st f Hw Hex Hz. apply does_set with (fun i => seg i =? s). { intros i Hi. rewrite (so_seg _ _ _ _ _ _ HSG) by auto. reflexivity. }
      eapply does_mono; [|eapply (rinv_run N me e b p sizes w base dt nm o n HN HC a um alimit ngroup ltac:(lia) HSm sg ld HSG f0 okd post R Hconv Hok s l st f Hw)].
      + cbv beta. intros l' st' f' X. eapply rinv_ext; [|exact X]. intros i Hi. cbv beta. rewrite (so_seg _ _ _ _ _ _ HSG) by auto. reflexivity.
      + destruct Hex as (i & Hi & E). rewrite (so_seg _ _ _ _ _ _ HSG) in E by auto. eauto.
      + intros i Hi E. apply Hz; auto. rewrite (so_seg _ _ _ _ _ _ HSG) by auto. exact E.
    - intros i Hi. pose proof (so_bounds _ _ _ _ _ _ HSG i Hi). lia.
    - lia.
    - constructor.
      + intros i Hi. left. reflexivity.
      + intros i Hi. reflexivity.
      + intros i Hi _. reflexivity.
      + intros i Hi Hs. pose proof (c_range i Hi). lia.
      + reflexivity.
      + intros j x [].
      + intros G i Hi. reflexivity.
      + intros x Hx Hs. exfalso. pose proof (c_Umono (x + 1) 0 ltac:(lia)) as M. rewrite c_U0 in M. lia.
      + intros x q A1 A2 A3 A4 A5. exfalso. pose proof (c_Umono x 0 ltac:(lia)) as M1. pose proof (c_Umono (x + 1) 0 ltac:(lia)) as M. rewrite c_U0 in M.
        assert (Zx : U x = 0 /\ U (x + 1) = 0); [|lia]. assert (G : forall y, 0 <= U y) by (intros y; unfold usum; apply zsum_nonneg; apply Forall_map; apply Forall_forall; intros j Hj; apply filter_In in Hj; destruct Hj as [Hj _]; apply in_seq in Hj; apply Hn; lia).
        pose proof (G x). pose proof (G (x + 1)). rewrite c_U0 in M1. lia. }
  cbv beta. intros l st f' (HW & HRan). destruct HW as [W1 W2 W3 W4 W5 W6 W7 W8 W9]. subst f'.
  apply finish_leads; [intros i Hi; rewrite W2 by auto; apply (co_block _ _ _ _ _ _ _ _ _ _ _ _ HC i Hi)|exact W1|]. intros rc p' Hrc Hz Hp1 Hp2. apply HQ; [exact HRan|]. split; [reflexivity|]. split; [exact W6|]. exists rc. split; [exact Hrc|].
  assert (Out : zsum sizes < o + total -> rc = -1).
  { intros Hl. destruct Hrc as [Rz|Rz]; [|exact Rz]. exfalso. destruct (c_crossing2 (zsum sizes - o) ltac:(lia)) as (x & Hr & Hx). destruct (W8 x Hx ltac:(lia)) as (i & Hi & Z0). apply Z0. apply Hz; auto. }
  split; [|split; [exact Out|split]].
  - intros i Hi. exists (p' i), (st_um (st i)). rewrite W2 by auto. split; [reflexivity|]. split; [|split; [apply Hp2; exact Hi|]].
    + intros Rz. apply Hp1; auto. destruct (Z_le_gt_dec (o + total) (zsum sizes)) as [L|L]; [exact L|]. specialize (Out ltac:(lia)). lia.
    + pose proof (c_range i Hi). destruct (W4 i Hi ltac:(lia)) as [[A B]|A]; [left; split; [exact A|]; intros Rz; apply B; apply Hz; auto|right; exact A].
  - intros (q & Hq & Hm). destruct (Z_lt_le_dec (zsum sizes) (o + total)) as [L|L]; [apply Out; exact L|]. destruct Hrc as [Rz|Rz]; [|exact Rz]. exfalso.
    destruct (c_crossing2 (q - o) ltac:(lia)) as (x & Hr & Hx). pose proof (c_Umono (x + 1) (Z.of_nat N + 2) ltac:(lia)) as M. rewrite c_Uall in M.
    destruct (W9 x q Hx ltac:(lia) Hm ltac:(lia) ltac:(lia)) as (i & Hi & Z0). apply Z0. apply Hz; auto.
  - intros G. apply Hz. apply W7. exact G.
Qed.
End Read.
End Call.
