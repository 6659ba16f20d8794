(* Memory instructions against SpecMem.v. *)
From Coq Require Import ZArith List Bool Lia ZifyBool ZifyNat.
From Verif Require Import Py Arith Floatops Val Opcode Numeric Syntax Store Basic Machine
  SpecInt SpecNum SpecMachine SpecMem PyFacts ArithFacts ValFacts StepFacts NumFacts LaneFacts.
Import ListNotations.
Open Scope Z_scope.

(* ---- lists by position ---- *)
Lemma py_index_nth {A} (l : list A) k x : nth_error l k = Some x -> py_index l (Z.of_nat k) = Ok x.
Proof.
  intros H. unfold py_index. destruct (Z.ltb_spec (Z.of_nat k) 0); [lia|].
  destruct (Z.ltb_spec (Z.of_nat k) 0); [lia|]. rewrite Nat2Z.id, H. reflexivity.
Qed.
Lemma py_index_0 {A} (l : list A) x : nth_error l 0 = Some x -> py_index l 0 = Ok x.
Proof. exact (py_index_nth l 0 x). Qed.
Lemma py_setitem_nth {A} (l : list A) k x y : nth_error l k = Some y -> py_setitem l (Z.of_nat k) x = Ok (upd l k x).
Proof.
  intros H. assert (k < length l)%nat by (apply nth_error_Some; congruence).
  rewrite py_setitem_in by (unfold len; lia). rewrite Nat2Z.id. reflexivity.
Qed.
Lemma py_index_nonneg {A} (l : list A) i : 0 <= i ->
  py_index l i = match nth_error l (Z.to_nat i) with Some x => Ok x | None => Err EIndex end.
Proof. intros H. unfold py_index. destruct (Z.ltb_spec i 0); [lia|]. destruct (Z.ltb_spec i 0); [lia|reflexivity]. Qed.
Lemma nth_error_skip {A} (l : list A) k i : nth_error (skipn k l) i = nth_error l (k + i).
Proof. revert l; induction k as [|k IH]; intros [|x l]; cbn [skipn Nat.add nth_error]; try reflexivity; [destruct i; reflexivity|apply IH]. Qed.
Lemma nth_error_first {A} (l : list A) k i : nth_error (firstn k l) i = if (i <? k)%nat then nth_error l i else None.
Proof.
  revert l i; induction k as [|k IH]; intros [|x l] [|i]; cbn [firstn nth_error]; try reflexivity.
  - destruct (Nat.ltb_spec (S i) (S k)); reflexivity.
  - rewrite IH. destruct (Nat.ltb_spec i k); destruct (Nat.ltb_spec (S i) (S k)); try lia; reflexivity.
Qed.
Lemma nth_error_ext {A} (l l' : list A) : (forall i, nth_error l i = nth_error l' i) -> l = l'.
Proof.
  revert l'; induction l as [|x l IH]; intros [|y l'] H.
  - reflexivity.
  - specialize (H 0%nat). discriminate H.
  - specialize (H 0%nat). discriminate H.
  - pose proof (H 0%nat) as H0. cbn in H0. injection H0 as <-. f_equal. apply IH. intros i. apply (H (S i)).
Qed.

(* ---- ranges ---- *)
Lemma range_of_slice {A} (d : list A) a n : 0 <= a -> 0 <= n -> a + n <= len d -> py_slice d a (a + n) = range_of d a n.
Proof. intros. rewrite py_slice_in by lia. unfold range_of. do 2 f_equal. lia. Qed.
Lemma len_range_of {A} (d : list A) a n : 0 <= a -> 0 <= n -> a + n <= len d -> len (range_of d a n) = n.
Proof. intros. unfold range_of, len in *. rewrite firstn_length, skipn_length. lia. Qed.
Lemma length_range_of {A} (d : list A) a n : 0 <= a -> 0 <= n -> a + n <= len d -> length (range_of d a n) = Z.to_nat n.
Proof. intros H1 H2 H3. pose proof (len_range_of d a n H1 H2 H3). unfold len in *. lia. Qed.
Lemma bytes_range_of d a n : bytes d -> bytes (range_of d a n).
Proof. intros. apply bytes_firstn, bytes_skipn; assumption. Qed.
Lemma nth_range_of {A} (d : list A) a n i : 0 <= a -> 0 <= n ->
  nth_error (range_of d a n) i = if Z.of_nat i <? n then nth_error d (Z.to_nat a + i) else None.
Proof.
  intros Ha Hn. unfold range_of. rewrite nth_error_first, nth_error_skip.
  destruct (Nat.ltb_spec i (Z.to_nat n)); destruct (Z.ltb_spec (Z.of_nat i) n); try lia; reflexivity.
Qed.
Lemma overwritten_slice {A} (d : list A) a bs : 0 <= a -> a + len bs <= len d ->
  overwritten d (py_slice_set d a (a + len bs) bs) a bs.
Proof.
  intros Ha Hb. pose proof (len_nonneg bs) as Hl. split.
  - pose proof (len_py_slice_set_in d a (a + len bs) bs ltac:(lia) Hb ltac:(lia)) as H. unfold len in H at 1 3. lia.
  - intros i. rewrite py_slice_set_in by lia. unfold len in *.
    destruct (Z.leb_spec a (Z.of_nat i)); cbn [andb].
    + rewrite nth_error_app2 by (rewrite firstn_length; lia).
      assert (E : length (firstn (Z.to_nat a) d) = Z.to_nat a) by (rewrite firstn_length; lia). rewrite E.
      destruct (Z.ltb_spec (Z.of_nat i) (a + Z.of_nat (length bs))).
      * rewrite nth_error_app1 by lia. reflexivity.
      * rewrite nth_error_app2 by lia. rewrite nth_error_skip. f_equal. lia.
    + rewrite nth_error_app1 by (rewrite firstn_length; lia). rewrite nth_error_first.
      destruct (Nat.ltb_spec i (Z.to_nat a)); [reflexivity|lia].
Qed.
Lemma overwritten_len {A} (d d' : list A) a bs : overwritten d d' a bs -> len d' = len d.
Proof. intros [H _]. unfold len. congruence. Qed.
Lemma overwritten_read {A} (d d' : list A) a bs : 0 <= a -> a + len bs <= len d -> overwritten d d' a bs ->
  range_of d' a (len bs) = bs.
Proof.
  intros Ha Hb [Hl H]. apply nth_error_ext. intros i. rewrite nth_range_of by (pose proof (len_nonneg bs); lia).
  unfold len in *. destruct (Z.ltb_spec (Z.of_nat i) (Z.of_nat (length bs))).
  - rewrite H. replace ((a <=? Z.of_nat (Z.to_nat a + i)) && (Z.of_nat (Z.to_nat a + i) <? a + Z.of_nat (length bs)))
      with true by lia. f_equal. lia.
  - symmetry. apply nth_error_None. lia.
Qed.
Lemma overwritten_other {A} (d d' : list A) a bs b n : 0 <= b -> 0 <= n -> overwritten d d' a bs ->
  b + n <= a \/ a + len bs <= b -> range_of d' b n = range_of d b n.
Proof.
  intros Hb Hn [Hl H] Hd. apply nth_error_ext. intros i. rewrite !nth_range_of by lia.
  destruct (Z.ltb_spec (Z.of_nat i) n); [|reflexivity]. rewrite H.
  replace ((a <=? Z.of_nat (Z.to_nat b + i)) && (Z.of_nat (Z.to_nat b + i) <? a + len bs)) with false by lia. reflexivity.
Qed.
Lemma overwritten_unique {A} (d d1 d2 : list A) a bs : overwritten d d1 a bs -> overwritten d d2 a bs -> d1 = d2.
Proof. intros [_ H1] [_ H2]. apply nth_error_ext. intros i. rewrite H1, H2. reflexivity. Qed.
Lemma bytes_overwritten d d' a bs : bytes d -> bytes bs -> overwritten d d' a bs -> bytes d'.
Proof.
  intros Hd Hb [Hl H]. apply Forall_forall. intros x Hx. apply In_nth_error in Hx. destruct Hx as [i Hi]. rewrite H in Hi.
  unfold bytes in *. rewrite Forall_forall in Hd, Hb.
  destruct ((a <=? Z.of_nat i) && (Z.of_nat i <? a + len bs)); apply nth_error_In in Hi; auto.
Qed.

(* ---- operands ---- *)
Lemma arg_int_nth args k z : nth_error args k = Some (AInt z) -> arg_int args (Z.of_nat k) = Ok z.
Proof. intros H. unfold arg_int. rewrite (py_index_nth _ _ _ H). reflexivity. Qed.
Lemma pop_u32_run s l v V : val_wf v -> pop_u32 (mkb s l (v :: V)) = (Ok (low 32 v), mkb s l V).
Proof. intros H. unfold pop_u32, bind, pop, lift. cbn [b_value b_store b_locals]. rewrite into_u32_ok by exact H. reflexivity. Qed.
Lemma low_nonneg N v : 0 <= N -> 0 <= low N v.
Proof. intros H. apply (low_range N v H). Qed.

Lemma mem_load_run s l v V mr a mem off n :
  nth_error (m_mems (mod_of s mr)) 0 = Some (Z.of_nat a) -> nth_error (s_mems s) a = Some mem -> val_wf v ->
  0 <= off -> 0 <= n ->
  mem_load mr off n (mkb s l (v :: V)) =
    (if low 32 v + off + n <=? len (mi_data mem) then Ok (range_of (mi_data mem) (low 32 v + off) n) else Err EAssert,
     mkb s l V).
Proof.
  intros Hm Ha Hv Ho Hn. unfold mem_load, mod_addr, get_mem, get_store, bind, lift.
  cbn [b_store]. rewrite (py_index_0 _ _ Hm), (py_index_nth _ _ _ Ha), pop_u32_run by exact Hv.
  pose proof (low_nonneg 32 v ltac:(lia)) as Hl. unfold assert, lift, py_assert, ret.
  destruct (Z.leb_spec (low 32 v + off + n) (len (mi_data mem))) as [H|H]; [|reflexivity].
  rewrite range_of_slice by lia. reflexivity.
Qed.

Lemma mem_save_run s l v va V mr a mem off n :
  nth_error (m_mems (mod_of s mr)) 0 = Some (Z.of_nat a) -> nth_error (s_mems s) a = Some mem -> val_wf v -> val_wf va ->
  0 <= off -> 0 <= n <= 16 ->
  mem_save mr off n (mkb s l (v :: va :: V)) =
    if low 32 va + off + n <=? len (mi_data mem)
    then (Ok tt, mkb (with_mem s a (mkmem (mi_type mem) (py_slice_set (mi_data mem) (low 32 va + off) (low 32 va + off + n)
                      (to_le (Z.to_nat n) (low (8 * n) v))) (mi_size mem))) l V)
    else (Err EAssert, mkb s l V).
Proof.
  intros Hm Ha Hv Hva Ho Hn. unfold mem_save, mod_addr, get_mem, put_mem, put_store, get_store, bind, lift.
  cbn [b_store]. rewrite (py_index_0 _ _ Hm), (py_index_nth _ _ _ Ha). unfold pop at 1. cbn [b_value b_store b_locals].
  rewrite pop_u32_run by exact Hva.
  unfold assert, lift, py_assert.
  destruct (low 32 va + off + n <=? len (mi_data mem)); [|reflexivity]. cbn [b_store].
  rewrite (py_setitem_nth _ _ _ _ Ha). cbn [b_value b_store b_locals].
  unfold set_s_mems, with_mem, set_mi_data. rewrite low_slice by (try exact Hv; lia).
  do 3 f_equal. f_equal. f_equal. f_equal. f_equal.
  apply le_of_inj; [apply bytes_firstn, Hv|apply to_le_bytes| |].
  - rewrite firstn_length, to_le_length. destruct Hv as [-> _]. lia.
  - rewrite le_of_firstn by apply Hv. rewrite le_of_to_le. unfold low. rewrite Z2Nat.id by lia.
    rewrite Z.mod_mod; [reflexivity|apply Z.pow_nonzero; lia].
Qed.

(* ---- what each load makes of the bytes ---- *)
Lemma le_of_u n d : bytes d -> len d = n -> urange (8 * n) (le_of d).
Proof. intros Hb <-. apply le_of_bound, Hb. Qed.

Lemma unpack_s_ok n d : 1 <= n -> bytes d -> len d = n -> unpack_s n d = Ok (sgn (8 * n) (le_of d)).
Proof.
  intros Hn Hb Hl. unfold unpack_s. rewrite Hl, Z.eqb_refl. unfold le_of_s. destruct d as [|x d].
  - change (len (@nil Z)) with 0 in Hl. lia.
  - rewrite Hl. reflexivity.
Qed.
Lemma unpack_u_ok n d : len d = n -> unpack_u n d = Ok (le_of d).
Proof. intros <-. unfold unpack_u. rewrite Z.eqb_refl. reflexivity. Qed.
Lemma sx_enc M N x : 0 < M <= N -> urange M x -> enc_s N (sgn M x) (sx M N x).
Proof.
  intros H Hx. assert (Hr : srange N (sgn M x)) by (apply srange_weaken with M; [lia|apply sgn_range; [lia|exact Hx]]).
  split; [exact Hr|]. unfold sx, unsgn. reflexivity.
Qed.
Lemma ux_enc M N x : 0 < M < N -> urange M x -> enc_s N x x.
Proof.
  intros H Hx. apply small_enc; [lia|]. unfold urange in Hx. assert (2 ^ M <= 2 ^ (N - 1)) by (apply Z.pow_le_mono_r; lia). lia.
Qed.

Lemma load_plain t d n : bytes d -> len d = n -> n <= 16 -> mk_val t (d ++ zeros (16 - n)) = Ok (num_val t (le_of d)).
Proof.
  intros Hb <- H. rewrite bytes_pad by (try exact Hb; unfold len in H; lia). apply mk_val_ok, to_le_length.
Qed.
Lemma sx_range M N x : 0 <= N -> urange N (sx M N x).
Proof. intros H. apply Z.mod_pos_bound. apply Z.pow_pos_nonneg; lia. Qed.
Lemma widen_sign w x : 1 <= w -> urange (8 * w) x ->
  to_bytes_s (2 * w) (x - Z.shiftl (Z.land x (2 ^ (8 * w - 1))) 1) =
  Ok (to_le (Z.to_nat (2 * w)) (sx (8 * w) (16 * w) x)).
Proof.
  intros Hw Hx. unfold urange in Hx. rewrite land_pow2 by lia. rewrite testbit_top by (try lia; replace (8 * w - 1 + 1) with (8 * w) by lia; exact Hx).
  assert (E : x - Z.shiftl (if 2 ^ (8 * w - 1) <=? x then 2 ^ (8 * w - 1) else 0) 1 = sgn (8 * w) x).
  { unfold sgn. pose proof (pow_half (8 * w) ltac:(lia)) as Hp.
    destruct (Z.leb_spec (2 ^ (8 * w - 1)) x); destruct (Z.ltb_spec x (2 ^ (8 * w - 1))); try lia;
      rewrite Z.shiftl_mul_pow2 by lia; lia. }
  rewrite E. destruct (sx_enc (8 * w) (16 * w) x ltac:(lia) Hx) as [Hr He].
  unfold to_bytes_s. replace (8 * (2 * w)) with (16 * w) by lia. rewrite (srange_true _ _ Hr). f_equal.
  apply to_le_inj_mod. rewrite Z2Nat.id by lia. replace (8 * (2 * w)) with (16 * w) by lia.
  rewrite He. symmetry. apply Z.mod_small, sx_range. lia.
Qed.
Lemma widen_zero w x : 1 <= w -> urange (8 * w) x ->
  to_bytes_u (2 * w) x = Ok (to_le (Z.to_nat (2 * w)) x).
Proof.
  intros Hw Hx. unfold to_bytes_u. rewrite urange_true; [reflexivity|]. unfold urange in *.
  assert (2 ^ (8 * w) <= 2 ^ (8 * (2 * w))) by (apply Z.pow_le_mono_r; lia). lia.
Qed.
Lemma load_widen_ok w n sign d : 1 <= w -> w * Z.of_nat n = 8 -> bytes d -> len d = 8 ->
  load_widen w (Z.of_nat n) sign d =
  Ok (num_val T_v128 (join (16 * w) (if sign then map (sx (8 * w) (16 * w)) (lanes (8 * w) n (le_of d)) else lanes (8 * w) n (le_of d)))).
Proof.
  intros Hw Hn Hb Hl. unfold load_widen.
  rewrite rmapl_ok with (g := fun i => to_le (Z.to_nat (2 * w))
    (if sign then sx (8 * w) (16 * w) (lane (8 * w) (le_of d) i) else lane (8 * w) (le_of d) i)).
  2:{ intros i Hi. apply py_range_in in Hi.
      assert (E : (if w =? 1 then py_index d i else Ok (le_of (py_slice d (i * w) (i * w + w)))) = Ok (lane (8 * w) (le_of d) i)).
      { destruct (Z.eqb_spec w 1) as [->|Hw1].
        - rewrite (py_index_in d i 0) by lia. rewrite lane_index by (try assumption; lia). reflexivity.
        - rewrite lane_slice by (try assumption; nia). reflexivity. }
      rewrite E. cbn [rbind]. pose proof (lane_range (8 * w) (le_of d) i ltac:(lia)) as Hr.
      destruct sign; [apply widen_sign|apply widen_zero]; assumption. }
  cbn [rbind].
  rewrite (map_range_lanes (fun x => to_le (Z.to_nat (2 * w)) (if sign then sx (8 * w) (16 * w) x else x))).
  set (L := if sign then map (sx (8 * w) (16 * w)) (lanes (8 * w) n (le_of d)) else lanes (8 * w) n (le_of d)).
  assert (EL : map (fun x => to_le (Z.to_nat (2 * w)) (if sign then sx (8 * w) (16 * w) x else x)) (lanes (8 * w) n (le_of d))
               = map (to_le (Z.to_nat (2 * w))) L).
  { unfold L. destruct sign; [rewrite map_map|]; reflexivity. }
  rewrite EL. assert (HL : len L = Z.of_nat n).
  { unfold L, len. destruct sign; [rewrite map_length|]; rewrite lanes_length; reflexivity. }
  rewrite concat_lanes.
  - rewrite from_v128_ok by apply to_le_length. unfold num_val. replace (8 * (2 * w)) with (16 * w) by lia. reflexivity.
  - lia.
  - rewrite HL. lia.
  - replace (8 * (2 * w)) with (16 * w) by lia. unfold L. apply Forall_forall. intros y Hy. destruct sign.
    + apply in_map_iff in Hy. destruct Hy as (z & <- & _). apply sx_range. lia.
    + pose proof (lanes_range (8 * w) n (le_of d) ltac:(lia)) as Hf. rewrite Forall_forall in Hf. specialize (Hf y Hy).
      unfold urange in *. assert (2 ^ (8 * w) <= 2 ^ (16 * w)) by (apply Z.pow_le_mono_r; lia). lia.
Qed.
Lemma map_repeat {A B} (f : A -> B) x n : map f (repeat x n) = repeat (f x) n.
Proof. induction n as [|n IH]; cbn; [reflexivity|]. rewrite IH. reflexivity. Qed.
Lemma splat_ok w n d : 0 <= w -> w * Z.of_nat n = 16 -> bytes d -> len d = w ->
  from_v128 (concat (repeat d n)) = Ok (num_val T_v128 (join (8 * w) (repeat (le_of d) n))).
Proof.
  intros Hw Hn Hb Hl.
  assert (E : repeat d n = map (to_le (Z.to_nat w)) (repeat (le_of d) n)).
  { rewrite map_repeat. f_equal. replace (Z.to_nat w) with (length d) by (unfold len in Hl; lia). symmetry. apply to_le_le_of, Hb. }
  rewrite E. rewrite concat_lanes.
  - apply from_v128_ok, to_le_length.
  - exact Hw.
  - unfold len. rewrite repeat_length. exact Hn.
  - apply Forall_forall. intros y Hy. apply repeat_spec in Hy. subst y. apply le_of_u; assumption.
Qed.

Lemma load_conv_all F o :
  match wasm_load o with
  | Some (n, t, f) =>
    num_op F o = None /\ is_control o = false /\ 1 <= n <= 16 /\
    exists conv : list Z -> res val, load_op o = Some (n, conv) /\
      forall d, bytes d -> len d = n -> conv d = Ok (num_val t (f (le_of d)))
  | None => True
  end.
Proof.
  destruct o; cbn [wasm_load]; try exact I;
    (split; [reflexivity|]); (split; [reflexivity|]); (split; [lia|]); eexists; (split; [reflexivity|]); intros d Hb Hl; cbv beta;
  try lazymatch goal with
    | |- mk_val _ _ = _ => apply load_plain; [exact Hb|exact Hl|lia]
    | |- rbind (unpack_s _ _) _ = _ =>
      rewrite unpack_s_ok by (try assumption; lia); cbn [rbind];
      lazymatch goal with |- from_i32 _ = _ => apply enc_i32 | _ => apply enc_i64 end;
      apply sx_enc; [lia|]; exact (le_of_u _ _ Hb Hl)
    | |- rbind (unpack_u _ _) _ = _ =>
      rewrite unpack_u_ok by assumption; cbn [rbind];
      lazymatch goal with |- from_i32 _ = _ => apply enc_i32 | _ => apply enc_i64 end;
      lazymatch type of Hl with _ = ?n => apply ux_enc with (8 * n); [lia|exact (le_of_u _ _ Hb Hl)] end
    end;
  try lazymatch goal with
    | |- from_v128 ?d = Ok (num_val T_v128 (le_of ?d)) =>
      rewrite from_v128_ok by (unfold len in Hl; lia); unfold num_val; rewrite <- (to_le_le_of d Hb) at 1;
      do 3 f_equal; unfold len in Hl; lia
    | |- load_widen 1 _ ?s _ = _ => apply (load_widen_ok 1 8 s); (lia || assumption)
    | |- load_widen 2 _ ?s _ = _ => apply (load_widen_ok 2 4 s); (lia || assumption)
    | |- load_widen 4 _ ?s _ = _ => apply (load_widen_ok 4 2 s); (lia || assumption)
    | |- from_v128 (_ ++ _) = _ =>
      unfold blen; rewrite <- Hl, bytes_pad by (try exact Hb; unfold len in Hl; lia); apply from_v128_ok, to_le_length
    end.
  - apply (splat_ok 1 16); (lia || assumption).
  - apply (splat_ok 2 8); (lia || assumption).
  - apply (splat_ok 4 4); (lia || assumption).
  - apply (splat_ok 8 2); (lia || assumption).
Qed.
Lemma load_conv F o n t f : wasm_load o = Some (n, t, f) ->
  num_op F o = None /\ is_control o = false /\ 1 <= n <= 16 /\
  exists conv : list Z -> res val, load_op o = Some (n, conv) /\
    forall d, bytes d -> len d = n -> conv d = Ok (num_val t (f (le_of d))).
Proof. intros H. pose proof (load_conv_all F o) as P. rewrite H in P. exact P. Qed.

(* ---- one step ---- *)
Lemma load_step F host m o args fr off n t f a mem v V :
  about_to_run m (IOp o args) fr -> wasm_load o = Some (n, t, f) -> nth_error args 1 = Some (AInt off) -> 0 <= off ->
  the_memory m fr a mem -> bytes (mi_data mem) -> k_value m = v :: V -> val_wf v ->
  let ea := low 32 v + off in
  if ea + n <=? len (mi_data mem)
  then step F host m = (Ok tt, moved_on m (num_val t (f (le_of (range_of (mi_data mem) ea n))) :: V))
  else exists e, step F host m = (Err e, moved_on m V).
Proof.
  intros Hr Hw Ho Hoff [Hm Ha] Hb Hv Hwf ea. destruct (load_conv F o n t f Hw) as (Hn & Hc & Hsz & conv & Hl & Hconv).
  assert (E : exec_basic F (fr_module fr) o args (mkb (k_store m) (fr_locals fr) (k_value m)) =
    if ea + n <=? len (mi_data mem)
    then (Ok tt, mkb (k_store m) (fr_locals fr) (num_val t (f (le_of (range_of (mi_data mem) ea n))) :: V))
    else (Err EAssert, mkb (k_store m) (fr_locals fr) V)).
  { unfold exec_basic. rewrite Hn, Hl, Hv. unfold bind at 1, lift at 1.
    rewrite (arg_int_nth args 1 off Ho : arg_int args 1 = Ok off). unfold bind at 1.
    rewrite (mem_load_run _ _ v V _ a mem off n Hm Ha Hwf) by lia. fold ea.
    destruct (Z.leb_spec (ea + n) (len (mi_data mem))) as [H|H]; [|reflexivity].
    pose proof (low_nonneg 32 v ltac:(lia)).
    unfold pushr, bind, lift, push. rewrite Hconv; [reflexivity|apply bytes_range_of, Hb|apply len_range_of; unfold ea in *; lia]. }
  destruct (ea + n <=? len (mi_data mem)).
  - exact (step_basic_pure F host m o args fr _ _ Hr Hc E).
  - exists EAssert. exact (step_basic_pure F host m o args fr _ _ Hr Hc E).
Qed.

Lemma store_ops F o : match wasm_store o with
  | Some n => num_op F o = None /\ is_control o = false /\ load_op o = None /\ store_op o = Some n /\ 1 <= n <= 16
  | None => True end.
Proof. destruct o; cbn [wasm_store]; try exact I; repeat split; lia. Qed.

Lemma store_step_eq F host m o args fr off n a mem v va V :
  about_to_run m (IOp o args) fr -> wasm_store o = Some n -> nth_error args 1 = Some (AInt off) -> 0 <= off ->
  the_memory m fr a mem -> k_value m = v :: va :: V -> val_wf v -> val_wf va ->
  let ea := low 32 va + off in
  if ea + n <=? len (mi_data mem)
  then step F host m = (Ok tt, with_store (moved_on m V) (with_mem (k_store m) a (mkmem (mi_type mem)
         (py_slice_set (mi_data mem) ea (ea + n) (to_le (Z.to_nat n) (low (8 * n) v))) (mi_size mem))))
  else exists e, step F host m = (Err e, moved_on m V).
Proof.
  intros Hr Hw Ho Hoff [Hm Ha] Hv Hwf Hwfa ea.
  pose proof (store_ops F o) as Hs. rewrite Hw in Hs. destruct Hs as (Hn & Hc & Hl & Hs & Hsz).
  assert (E : exec_basic F (fr_module fr) o args (mkb (k_store m) (fr_locals fr) (k_value m)) =
    mem_save (fr_module fr) off n (mkb (k_store m) (fr_locals fr) (v :: va :: V))).
  { unfold exec_basic. rewrite Hn, Hl, Hs, Hv. unfold bind at 1, lift at 1.
    rewrite (arg_int_nth args 1 off Ho : arg_int args 1 = Ok off). reflexivity. }
  rewrite (mem_save_run _ _ v va V _ a mem off n Hm Ha Hwf Hwfa) in E by lia. fold ea in E.
  destruct (ea + n <=? len (mi_data mem)).
  - exact (step_basic_store F host m o args fr _ _ _ Hr Hc E).
  - exists EAssert. exact (step_basic_pure F host m o args fr _ _ Hr Hc E).
Qed.
Lemma store_over d ea n z : 0 <= ea -> 0 <= n -> ea + n <= len d ->
  overwritten d (py_slice_set d ea (ea + n) (to_le (Z.to_nat n) z)) ea (to_le (Z.to_nat n) z).
Proof.
  intros He Hn Hl. pose proof (overwritten_slice d ea (to_le (Z.to_nat n) z) He) as P.
  rewrite len_to_le, Z2Nat.id in P by lia. apply P, Hl.
Qed.
Lemma store_step F host m o args fr off n a mem v va V :
  about_to_run m (IOp o args) fr -> wasm_store o = Some n -> nth_error args 1 = Some (AInt off) -> 0 <= off ->
  the_memory m fr a mem -> k_value m = v :: va :: V -> val_wf v -> val_wf va ->
  let ea := low 32 va + off in
  if ea + n <=? len (mi_data mem)
  then exists d', overwritten (mi_data mem) d' ea (to_le (Z.to_nat n) (low (8 * n) v)) /\
       step F host m = (Ok tt, with_store (moved_on m V) (with_mem (k_store m) a (mkmem (mi_type mem) d' (mi_size mem))))
  else exists e, step F host m = (Err e, moved_on m V).
Proof.
  intros Hr Hw Ho Hoff Hm Hv Hwf Hwfa ea.
  pose proof (store_step_eq F host m o args fr off n a mem v va V Hr Hw Ho Hoff Hm Hv Hwf Hwfa) as H. cbv zeta in H. fold ea in H.
  pose proof (store_ops F o) as Hs. rewrite Hw in Hs. destruct Hs as (_ & _ & _ & _ & Hsz).
  pose proof (low_nonneg 32 va ltac:(lia)).
  destruct (Z.leb_spec (ea + n) (len (mi_data mem))) as [Hle|]; [|exact H].
  eexists. split; [|exact H]. apply store_over; unfold ea in *; lia.
Qed.

(* ---- lanes ---- *)
Lemma skipn_skipn {A} n m (l : list A) : skipn n (skipn m l) = skipn (n + m) l.
Proof. apply nth_error_ext. intros i. rewrite !nth_error_skip. f_equal. lia. Qed.
Lemma le_of_slice_set d a b v : bytes d -> 0 <= a -> a + len v = b -> b <= len d ->
  le_of (py_slice_set d a b v) = le_of d - le_of (py_slice d a b) * 2 ^ (8 * a) + le_of v * 2 ^ (8 * a).
Proof.
  intros Hd Ha <- Hb. pose proof (len_nonneg v). rewrite py_slice_set_in, py_slice_in by lia.
  replace (a + len v - a) with (len v) by lia.
  assert (E : le_of d = le_of (firstn (Z.to_nat a) d) + 2 ^ (8 * a) *
     (le_of (firstn (Z.to_nat (len v)) (skipn (Z.to_nat a) d)) + 2 ^ (8 * len v) * le_of (skipn (Z.to_nat (a + len v)) d))).
  { rewrite <- (firstn_skipn (Z.to_nat a) d) at 1. rewrite le_of_app.
    rewrite <- (firstn_skipn (Z.to_nat (len v)) (skipn (Z.to_nat a) d)) at 1. rewrite le_of_app.
    rewrite skipn_skipn. replace (Z.to_nat (len v) + Z.to_nat a)%nat with (Z.to_nat (a + len v)) by lia.
    assert (L1 : len (firstn (Z.to_nat a) d) = a) by (unfold len in *; rewrite firstn_length; lia).
    assert (L2 : len (firstn (Z.to_nat (len v)) (skipn (Z.to_nat a) d)) = len v)
      by (unfold len in *; rewrite firstn_length, skipn_length; lia).
    rewrite L1, L2. reflexivity. }
  rewrite !le_of_app. rewrite E at 1.
  assert (L1 : len (firstn (Z.to_nat a) d) = a) by (unfold len in *; rewrite firstn_length; lia). rewrite L1. ring.
Qed.
Lemma set_lane_slice w k z v : 1 <= w -> 0 <= k -> len v = w -> w * k + w <= 16 -> 0 <= z < 2 ^ 128 -> bytes v ->
  py_slice_set (to_le 16 z) (w * k) (w * k + w) v = to_le 16 (set_lane w z k (le_of v)).
Proof.
  intros Hw Hk Hv Hl Hz Hb. assert (L : len (to_le 16 z) = 16) by (rewrite len_to_le; reflexivity).
  rewrite <- (to_le_le_of (py_slice_set (to_le 16 z) (w * k) (w * k + w) v)) by (apply bytes_slice_set; [apply to_le_bytes|exact Hb]).
  pose proof (len_py_slice_set_in (to_le 16 z) (w * k) (w * k + w) v ltac:(nia) ltac:(lia) ltac:(lia)) as Len.
  replace (length (py_slice_set (to_le 16 z) (w * k) (w * k + w) v)) with 16%nat by (unfold len in *; lia).
  f_equal. rewrite le_of_slice_set by (try apply to_le_bytes; try lia; nia).
  replace (w * k) with (k * w) by lia. rewrite lane_slice by (try apply to_le_bytes; nia).
  unfold set_lane. rewrite le_of_to_le. change (8 * Z.of_nat 16) with 128. rewrite (Z.mod_small z) by exact Hz.
  replace (8 * w * k) with (8 * (k * w)) by lia. reflexivity.
Qed.
Lemma wf_data v : val_wf v -> v_data v = to_le 16 (low 128 v).
Proof.
  intros [Hl Hb]. unfold low. pose proof (le_of_bound _ Hb) as P. unfold len in P. rewrite Hl in P.
  change (8 * Z.of_nat 16) with 128 in P. rewrite Z.mod_small by exact P. rewrite <- Hl. symmetry. apply to_le_le_of, Hb.
Qed.
Lemma lane_ops F o :
  match wasm_load_lane o with
  | Some w => num_op F o = None /\ is_control o = false /\ load_op o = None /\ store_op o = None /\
              (forall mr args, exec_misc mr o args = load_lane mr w args) /\ 1 <= w <= 8
  | None => True end /\
  match wasm_store_lane o with
  | Some w => num_op F o = None /\ is_control o = false /\ load_op o = None /\ store_op o = None /\
              (forall mr args, exec_misc mr o args = store_lane mr w args) /\ 1 <= w <= 8
  | None => True end.
Proof. split; destruct o; cbn [wasm_load_lane wasm_store_lane]; try exact I; repeat split; lia. Qed.

Lemma load_lane_step F host m o args fr off k w a mem v va V :
  about_to_run m (IOp o args) fr -> wasm_load_lane o = Some w ->
  nth_error args 1 = Some (AInt off) -> nth_error args 2 = Some (AInt k) -> 0 <= off -> 0 <= k -> w * k + w <= 16 ->
  the_memory m fr a mem -> bytes (mi_data mem) -> k_value m = v :: va :: V -> val_wf v -> val_wf va ->
  let ea := low 32 va + off in
  if ea + w <=? len (mi_data mem)
  then step F host m =
       (Ok tt, moved_on m (num_val T_v128 (set_lane w (low 128 v) k (le_of (range_of (mi_data mem) ea w))) :: V))
  else exists e, step F host m = (Err e, moved_on m V).
Proof.
  intros Hr Hw Ho Hk1 Hoff Hk Hkw [Hm Ha] Hb Hv Hwf Hwfa ea.
  pose proof (proj1 (lane_ops F o)) as Hs. rewrite Hw in Hs. destruct Hs as (Hn & Hc & Hl & Hs & Hx & Hsz).
  assert (E : exec_basic F (fr_module fr) o args (mkb (k_store m) (fr_locals fr) (k_value m)) =
    if ea + w <=? len (mi_data mem)
    then (Ok tt, mkb (k_store m) (fr_locals fr) (num_val T_v128 (set_lane w (low 128 v) k (le_of (range_of (mi_data mem) ea w))) :: V))
    else (Err EAssert, mkb (k_store m) (fr_locals fr) V)).
  { unfold exec_basic. rewrite Hn, Hl, Hs, Hv, Hx. unfold load_lane. unfold bind at 1, pop. cbn [b_value b_store b_locals].
    unfold bind at 1, lift at 1. rewrite into_v128_ok by exact Hwf. unfold bind at 1, lift at 1.
    rewrite (arg_int_nth args 1 off Ho : arg_int args 1 = Ok off). unfold bind at 1.
    rewrite (mem_load_run _ _ va V _ a mem off w Hm Ha Hwfa) by lia. fold ea.
    destruct (Z.leb_spec (ea + w) (len (mi_data mem))) as [H|H]; [|reflexivity].
    pose proof (low_nonneg 32 va ltac:(lia)) as Hl32.
    unfold bind at 1, lift at 1. rewrite (arg_int_nth args 2 k Hk1 : arg_int args 2 = Ok k).
    rewrite (wf_data v Hwf). rewrite set_lane_slice.
    - unfold pushr, bind, lift, push. change (zeros (blen - 16)) with (@nil Z). rewrite app_nil_r.
      rewrite mk_val_ok by apply to_le_length. reflexivity.
    - lia.
    - lia.
    - apply len_range_of; unfold ea in *; lia.
    - lia.
    - apply (low_range 128 v). lia.
    - apply bytes_range_of, Hb. }
  destruct (ea + w <=? len (mi_data mem)).
  - exact (step_basic_pure F host m o args fr _ _ Hr Hc E).
  - exists EAssert. exact (step_basic_pure F host m o args fr _ _ Hr Hc E).
Qed.

Lemma store_lane_step F host m o args fr off k w a mem v va V :
  about_to_run m (IOp o args) fr -> wasm_store_lane o = Some w ->
  nth_error args 1 = Some (AInt off) -> nth_error args 2 = Some (AInt k) -> 0 <= off -> 0 <= k -> w * k + w <= 16 ->
  the_memory m fr a mem -> k_value m = v :: va :: V -> val_wf v -> val_wf va ->
  let ea := low 32 va + off in
  if ea + w <=? len (mi_data mem)
  then exists d', overwritten (mi_data mem) d' ea (to_le (Z.to_nat w) (lane (8 * w) (low 128 v) k)) /\
       step F host m = (Ok tt, with_store (moved_on m V) (with_mem (k_store m) a (mkmem (mi_type mem) d' (mi_size mem))))
  else exists e, step F host m = (Err e, moved_on m V).
Proof.
  intros Hr Hw Ho Hk1 Hoff Hk Hkw [Hm Ha] Hv Hwf Hwfa ea.
  pose proof (proj2 (lane_ops F o)) as Hs. rewrite Hw in Hs. destruct Hs as (Hn & Hc & Hl & Hs & Hx & Hsz).
  set (v' := num_val T_v128 (set_lane w (low 128 v) 0 (lane (8 * w) (low 128 v) k))).
  assert (Hv' : val_wf v') by apply mkval_wf.
  assert (E : exec_basic F (fr_module fr) o args (mkb (k_store m) (fr_locals fr) (k_value m)) =
    mem_save (fr_module fr) off w (mkb (k_store m) (fr_locals fr) (v' :: va :: V))).
  { unfold exec_basic. rewrite Hn, Hl, Hs, Hv, Hx. unfold store_lane. unfold bind at 1, pop. cbn [b_value b_store b_locals].
    unfold bind at 1, lift at 1. rewrite into_v128_ok by exact Hwf. unfold bind at 1, lift at 1.
    rewrite (arg_int_nth args 2 k Hk1 : arg_int args 2 = Ok k).
    set (sl := py_slice (v_data v) (w * k) (w * k + w)).
    assert (Lsl : len sl = w) by (unfold sl; rewrite len_py_slice_in by (rewrite ?wf_len by exact Hwf; nia); lia).
    assert (Bsl : bytes sl) by (apply bytes_slice, Hwf).
    assert (Esl : le_of sl = lane (8 * w) (low 128 v) k).
    { unfold sl. replace (w * k) with (k * w) by lia. rewrite lane_slice by (try apply Hwf; rewrite ?wf_len by exact Hwf; nia).
      rewrite (wf_data v Hwf), le_of_to_le. change (8 * Z.of_nat 16) with 128. unfold low.
      rewrite Z.mod_mod by (vm_compute; discriminate). reflexivity. }
    pose proof (set_lane_slice w 0 (low 128 v) sl ltac:(lia) ltac:(lia) Lsl ltac:(lia) (low_range 128 v ltac:(lia)) Bsl) as P.
    rewrite Z.mul_0_r, Z.add_0_l, Esl in P. rewrite <- (wf_data v Hwf) in P.
    unfold pushr. unfold bind at 1. unfold bind at 1, lift at 1. rewrite P, from_v128_ok by apply to_le_length.
    unfold push. cbn [b_value b_store b_locals]. unfold bind, lift. rewrite (arg_int_nth args 1 off Ho : arg_int args 1 = Ok off).
    reflexivity. }
  rewrite (mem_save_run _ _ v' va V _ a mem off w Hm Ha Hv' Hwfa) in E by lia. fold ea in E.
  assert (El : low (8 * w) v' = lane (8 * w) (low 128 v) k).
  { pose proof (lane_range (8 * w) (low 128 v) k ltac:(lia)) as Hr1. pose proof (low_range 128 v ltac:(lia)) as Hr2.
    unfold v', low at 1, num_val. cbn [v_data]. rewrite le_of_to_le. change (8 * Z.of_nat 16) with 128.
    assert (Hpow : 2 ^ 128 = 2 ^ (8 * w) * 2 ^ (128 - 8 * w)) by (rewrite <- Z.pow_add_r by lia; f_equal; lia).
    rewrite Hpow. assert (0 < 2 ^ (8 * w)) by (apply Z.pow_pos_nonneg; lia).
    rewrite Z.rem_mul_r by (try apply Z.pow_nonzero; try apply Z.pow_pos_nonneg; lia).
    rewrite (Z.mul_comm (2 ^ (8 * w))), Z.mod_add by lia. rewrite Z.mod_mod by lia.
    unfold set_lane. rewrite Z.mul_0_r. change (2 ^ 0) with 1. rewrite !Z.mul_1_r.
    unfold lane at 1. rewrite Z.mul_0_r. change (2 ^ 0) with 1. rewrite Z.div_1_r.
    pose proof (Z.div_mod (low 128 v) (2 ^ (8 * w)) ltac:(lia)) as Hd.
    replace (low 128 v - low 128 v mod 2 ^ (8 * w) + lane (8 * w) (low 128 v) k)
      with (lane (8 * w) (low 128 v) k + (low 128 v / 2 ^ (8 * w)) * 2 ^ (8 * w)) by lia.
    rewrite Z.mod_add by lia. apply Z.mod_small, Hr1. }
  rewrite El in E. pose proof (low_nonneg 32 va ltac:(lia)).
  destruct (Z.leb_spec (ea + w) (len (mi_data mem))).
  - eexists. split; [|exact (step_basic_store F host m o args fr _ _ _ Hr Hc E)]. apply store_over; unfold ea in *; lia.
  - exists EAssert. exact (step_basic_pure F host m o args fr _ _ Hr Hc E).
Qed.

(* ---- two steps: C19 ---- *)
Lemma moved_on_about m i fr V s : about_to_run m i fr -> forall j, next_is m j ->
  about_to_run (with_store (moved_on m V) s) j fr.
Proof.
  intros [_ Hf] j (lb & ls & El & Ej). split.
  - exists (mklabel (lb_arity lb) (lb_frame lb) (lb_value lb) (lb_carry lb) (lb_instr lb) (S (lb_index lb))), ls.
    unfold with_store, moved_on. cbn [k_label]. rewrite El. split; [reflexivity|exact Ej].
  - exact Hf.
Qed.
Lemma mod_of_with_mem s r a x : mod_of (with_mem s a x) r = mod_of s r.
Proof. destruct r; reflexivity. Qed.
Lemma the_memory_with m fr a mem mem' V : the_memory m fr a mem ->
  the_memory (with_store (moved_on m V) (with_mem (k_store m) a mem')) fr a mem'.
Proof.
  intros [Hm Ha]. unfold the_memory, with_store. cbn [k_store]. rewrite mod_of_with_mem. split; [exact Hm|].
  unfold with_mem. cbn [s_mems]. rewrite nth_error_upd, Nat.eqb_refl.
  assert (a < length (s_mems (k_store m)))%nat by (apply nth_error_Some; congruence).
  destruct (Nat.ltb_spec a (length (s_mems (k_store m)))); [reflexivity|lia].
Qed.
Lemma store_then_load F host m fr o1 args1 off1 n o2 args2 off2 t f a mem v va va' V n2 :
  about_to_run m (IOp o1 args1) fr -> next_is m (IOp o2 args2) ->
  wasm_store o1 = Some n -> nth_error args1 1 = Some (AInt off1) -> 0 <= off1 ->
  wasm_load o2 = Some (n2, t, f) -> nth_error args2 1 = Some (AInt off2) -> 0 <= off2 ->
  the_memory m fr a mem -> bytes (mi_data mem) ->
  k_value m = v :: va :: va' :: V -> val_wf v -> val_wf va -> val_wf va' ->
  low 32 va + off1 + n <= len (mi_data mem) -> low 32 va' + off2 + n2 <= len (mi_data mem) ->
  exists m1 m2, step F host m = (Ok tt, m1) /\ step F host m1 = (Ok tt, m2) /\
    (low 32 va + off1 = low 32 va' + off2 -> n2 = n -> k_value m2 = num_val t (f (low (8 * n) v)) :: V) /\
    (low 32 va' + off2 + n2 <= low 32 va + off1 \/ low 32 va + off1 + n <= low 32 va' + off2 ->
     k_value m2 = num_val t (f (le_of (range_of (mi_data mem) (low 32 va' + off2) n2))) :: V).
Proof.
  intros Hr Hn Hs Ho1 Hf1 Hl Ho2 Hf2 Hm Hb Hv Hwv Hwa Hwa' He1 He2.
  pose proof (store_step F host m o1 args1 fr off1 n a mem v va (va' :: V) Hr Hs Ho1 Hf1 Hm Hv Hwv Hwa) as S1. cbv zeta in S1.
  destruct (Z.leb_spec (low 32 va + off1 + n) (len (mi_data mem))); [|lia]. destruct S1 as (d' & Hd & S1).
  set (m1 := with_store (moved_on m (va' :: V)) (with_mem (k_store m) a (mkmem (mi_type mem) d' (mi_size mem)))) in *.
  assert (Hb' : bytes d') by (eapply bytes_overwritten; [exact Hb| |exact Hd]; apply to_le_bytes).
  pose proof (load_step F host m1 o2 args2 fr off2 n2 t f a (mkmem (mi_type mem) d' (mi_size mem)) va' V
    (moved_on_about _ _ _ _ _ Hr _ Hn) Hl Ho2 Hf2 (the_memory_with _ _ _ _ _ _ Hm) Hb' eq_refl Hwa') as S2.
  cbv zeta in S2. cbn [mi_data] in S2. rewrite (overwritten_len _ _ _ _ Hd) in S2.
  destruct (Z.leb_spec (low 32 va' + off2 + n2) (len (mi_data mem))); [|lia].
  exists m1. eexists. split; [exact S1|]. split; [exact S2|]. cbn [k_value moved_on].
  pose proof (low_nonneg 32 va ltac:(lia)). pose proof (low_nonneg 32 va' ltac:(lia)).
  pose proof (store_ops F o1) as Hs'. rewrite Hs in Hs'. destruct Hs' as (_ & _ & _ & _ & Hsz).
  destruct (load_conv F o2 n2 t f Hl) as (_ & _ & Hsz2 & _).
  assert (Lz : len (to_le (Z.to_nat n) (low (8 * n) v)) = n) by (rewrite len_to_le; lia). split.
  - intros Eea ->. rewrite <- Eea. rewrite <- Lz at 1. rewrite (overwritten_read (mi_data mem)); [|lia|rewrite Lz; lia|exact Hd].
    rewrite le_of_to_le, Z2Nat.id by lia. unfold low at 1. rewrite Z.mod_mod by (apply Z.pow_nonzero; lia). reflexivity.
  - intros Hdis. rewrite (overwritten_other (mi_data mem) d' (low 32 va + off1) (to_le (Z.to_nat n) (low (8 * n) v)));
      [reflexivity|lia|lia|exact Hd|rewrite Lz; exact Hdis].
Qed.
