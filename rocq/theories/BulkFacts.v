(* memory.grow/size, the bulk instructions, tables, segments, locals and globals against SpecMem.v. *)
From Coq Require Import ZArith List Bool Lia ZifyBool ZifyNat.
From Verif Require Import Py Arith Floatops Val Opcode Numeric Syntax Store Basic Machine
  SpecInt SpecNum SpecMachine SpecMem PyFacts ArithFacts ValFacts StepFacts NumFacts LaneFacts MemFacts.
Import ListNotations.
Open Scope Z_scope.

Lemma misc_run F mr o args : num_op F o = None -> load_op o = None -> store_op o = None ->
  exec_basic F mr o args = exec_misc mr o args.
Proof. intros H1 H2 H3. unfold exec_basic. rewrite H1, H2, H3. reflexivity. Qed.

Lemma bind_ok {S A B} (e : ST S A) (f : A -> ST S B) s a s' : e s = (Ok a, s') -> bind e f s = f a s'.
Proof. intros H. unfold bind. rewrite H. reflexivity. Qed.
Lemma bind_err {S A B} (e : ST S A) (f : A -> ST S B) s x s' : e s = (Err x, s') -> bind e f s = (Err x, s').
Proof. intros H. unfold bind. rewrite H. reflexivity. Qed.

Section run.
Context (s : store) (l V : list val) (mr : modref).
Let st := mkb s l V.
Lemma lift_run {A} (r : res A) : lift r st = (r, st).
Proof. reflexivity. Qed.
Lemma arg_run args k z : nth_error args k = Some (AInt z) -> lift (arg_int args (Z.of_nat k)) st = (Ok z, st).
Proof. intros H. rewrite (arg_int_nth _ _ _ H). reflexivity. Qed.
Lemma mod_addr_run (field : modinst -> list Z) j a :
  nth_error (field (mod_of s mr)) j = Some a -> mod_addr mr field (Z.of_nat j) st = (Ok a, st).
Proof. intros H. unfold mod_addr, bind, get_store, lift, st. cbn [b_store]. rewrite (py_index_nth _ _ _ H). reflexivity. Qed.
Lemma get_mem_run a x : nth_error (s_mems s) a = Some x -> get_mem (Z.of_nat a) st = (Ok x, st).
Proof. intros H. unfold get_mem, bind, get_store, lift, st. cbn [b_store]. rewrite (py_index_nth _ _ _ H). reflexivity. Qed.
Lemma get_tab_run a x : nth_error (s_tabl s) a = Some x -> get_tab (Z.of_nat a) st = (Ok x, st).
Proof. intros H. unfold get_tab, bind, get_store, lift, st. cbn [b_store]. rewrite (py_index_nth _ _ _ H). reflexivity. Qed.
Lemma get_glob_run a x : nth_error (s_glob s) a = Some x -> get_glob (Z.of_nat a) st = (Ok x, st).
Proof. intros H. unfold get_glob, bind, get_store, lift, st. cbn [b_store]. rewrite (py_index_nth _ _ _ H). reflexivity. Qed.
Lemma get_elem_run a x : nth_error (s_elem s) a = Some x -> get_elem (Z.of_nat a) st = (Ok x, st).
Proof. intros H. unfold get_elem, bind, get_store, lift, st. cbn [b_store]. rewrite (py_index_nth _ _ _ H). reflexivity. Qed.
Lemma get_data_run a x : nth_error (s_data s) a = Some x -> get_data (Z.of_nat a) st = (Ok x, st).
Proof. intros H. unfold get_data, bind, get_store, lift, st. cbn [b_store]. rewrite (py_index_nth _ _ _ H). reflexivity. Qed.
Lemma get_blob_run b x : nth_error (s_blob s) b = Some x -> get_blob b st = (Ok x, st).
Proof. intros H. unfold get_blob, bind, get_store, ret, st. cbn [b_store]. rewrite (nth_error_nth _ _ _ H). reflexivity. Qed.
Lemma put_mem_run a x y : nth_error (s_mems s) a = Some x -> put_mem (Z.of_nat a) y st = (Ok tt, mkb (with_mem s a y) l V).
Proof. intros H. unfold put_mem, bind, get_store, lift, st. cbn [b_store]. rewrite (py_setitem_nth _ _ _ _ H). reflexivity. Qed.
Lemma put_tab_run a x y : nth_error (s_tabl s) a = Some x -> put_tab (Z.of_nat a) y st = (Ok tt, mkb (with_table s a y) l V).
Proof. intros H. unfold put_tab, bind, get_store, lift, st. cbn [b_store]. rewrite (py_setitem_nth _ _ _ _ H). reflexivity. Qed.
Lemma put_glob_run a x y : nth_error (s_glob s) a = Some x -> put_glob (Z.of_nat a) y st = (Ok tt, mkb (with_global s a y) l V).
Proof. intros H. unfold put_glob, bind, get_store, lift, st. cbn [b_store]. rewrite (py_setitem_nth _ _ _ _ H). reflexivity. Qed.
Lemma put_elem_run a x y : nth_error (s_elem s) a = Some x -> put_elem (Z.of_nat a) y st = (Ok tt, mkb (with_elem s a y) l V).
Proof. intros H. unfold put_elem, bind, get_store, lift, st. cbn [b_store]. rewrite (py_setitem_nth _ _ _ _ H). reflexivity. Qed.
Lemma put_blob_run b y : put_blob b y st = (Ok tt, mkb (with_blob s b y) l V).
Proof. reflexivity. Qed.
Lemma assert_true b : b = true -> assert b st = (Ok tt, st).
Proof. intros ->. reflexivity. Qed.
Lemma assert_false b : b = false -> assert b st = (Err EAssert, st).
Proof. intros ->. reflexivity. Qed.
Lemma pushr_run r v : r = Ok v -> pushr r st = (Ok tt, mkb s l (v :: V)).
Proof. intros ->. reflexivity. Qed.
End run.
Lemma pop_run s l v V : pop (mkb s l (v :: V)) = (Ok v, mkb s l V).
Proof. reflexivity. Qed.

Lemma with_store_same m : with_store m (k_store m) = m.
Proof. destruct m; reflexivity. Qed.

(* ---- memory.size, memory.grow ---- *)
Lemma page_enc n : 0 <= n <= 65536 -> from_i32 n = Ok (num_val T_i32 n).
Proof. intros H. apply enc_i32, small_enc; [lia|]. assert (65536 < 2 ^ (32 - 1)) by reflexivity. lia. Qed.
Lemma minus_one : from_i32 (-1) = Ok (num_val T_i32 (2 ^ 32 - 1)).
Proof. apply enc_i32. split; [|reflexivity]. unfold srange. split; reflexivity || discriminate. Qed.

Lemma size_step F host m args fr a mem :
  about_to_run m (IOp O_memory_size args) fr -> the_memory m fr a mem -> mem_wf mem ->
  step F host m = (Ok tt, moved_on m (num_val T_i32 (mi_size mem) :: k_value m)).
Proof.
  intros Hr [Hm Ha] (_ & Hs & _). apply (step_basic_pure F host m _ args fr _ _ Hr eq_refl).
  rewrite misc_run by reflexivity. unfold exec_misc.
  erewrite bind_ok by exact (mod_addr_run _ _ _ _ m_mems 0 _ Hm).
  erewrite bind_ok by (apply get_mem_run, Ha).
  apply pushr_run, page_enc, Hs.
Qed.
Lemma grow_step F host m args fr a mem v V :
  about_to_run m (IOp O_memory_grow args) fr -> the_memory m fr a mem -> mem_wf mem ->
  k_value m = v :: V -> val_wf v ->
  let n := low 32 v in
  let max := l_m (mi_type mem) in
  if (mi_size mem + n <=? 1024) && ((max =? 0) || (mi_size mem + n <=? max))
  then step F host m = (Ok tt, with_store (moved_on m (num_val T_i32 (mi_size mem) :: V))
         (with_mem (k_store m) a (mkmem (mi_type mem) (mi_data mem ++ repeat 0 (Z.to_nat (65536 * n))) (mi_size mem + n))))
  else step F host m = (Ok tt, moved_on m (num_val T_i32 (2 ^ 32 - 1) :: V)).
Proof.
  intros Hr [Hm Ha] (_ & Hs & _) Hv Hwf n max.
  assert (E : forall r V' s, exec_misc (fr_module fr) O_memory_grow args (mkb (k_store m) (fr_locals fr) (k_value m)) =
     (r, mkb s (fr_locals fr) V') -> step F host m = (r, with_store (moved_on m V') s)).
  { intros r V' s E. apply (step_basic_store F host m _ args fr _ _ _ Hr eq_refl). rewrite misc_run by reflexivity. exact E. }
  rewrite Hv in E. unfold exec_misc in E.
  erewrite bind_ok in E by exact (mod_addr_run _ _ _ _ m_mems 0 _ Hm).
  erewrite bind_ok in E by (apply get_mem_run, Ha).
  erewrite bind_ok in E by (apply pop_u32_run, Hwf). fold n max in E.
  destruct ((mi_size mem + n <=? 1024) && ((max =? 0) || (mi_size mem + n <=? max))) eqn:C.
  - assert (G : mem_grow mem n = Ok (mkmem (mi_type mem) (mi_data mem ++ repeat 0 (Z.to_nat (65536 * n))) (mi_size mem + n))).
    { unfold mem_grow. fold max. replace (if max =? 0 then Ok tt else py_assert (mi_size mem + n <=? max)) with (@Ok unit tt)
        by (destruct (max =? 0); [reflexivity|]; destruct (mi_size mem + n <=? max); [reflexivity|]; cbn [orb] in C; lia).
      cbn [rbind]. destruct (Z.leb_spec (mi_size mem + n) 65536); [|lia]. cbn [py_assert rbind]. unfold zeros.
      pose proof (low_nonneg 32 v ltac:(lia)). destruct (Z.ltb_spec n 0); [unfold n in *; lia|]. cbn [rbind].
      replace (n * 64 * 1024) with (65536 * n) by lia. reflexivity. }
    apply E. rewrite G. erewrite bind_ok by apply lift_run. erewrite bind_ok by (apply (put_mem_run _ _ _ a mem), Ha).
    apply pushr_run, page_enc, Hs.
  - rewrite (E (Ok tt) (num_val T_i32 (2 ^ 32 - 1) :: V) (k_store m) (pushr_run _ _ _ _ _ minus_one)).
    exact (f_equal _ (with_store_same (moved_on m _))).
Qed.

(* ---- fill ---- *)
Lemma fill_loop_ok {A} (l : list A) d n x : 0 <= d -> 0 <= n -> d + n <= len l ->
  exists l', fill_loop l d n x = Ok l' /\ overwritten l l' d (repeat x (Z.to_nat n)).
Proof.
  intros Hd Hn Hl. unfold fill_loop, py_range. set (k := Z.to_nat n).
  assert (Hk : d + Z.of_nat k <= len l) by (unfold k; lia). clearbody k. clear n Hn Hl.
  induction k as [|k IH].
  - exists l. split; [reflexivity|]. split; [reflexivity|]. intros i. cbn [repeat]. change (len (@nil A)) with 0.
    replace ((d <=? Z.of_nat i) && (Z.of_nat i <? d + 0)) with false by lia. reflexivity.
  - destruct IH as (l' & E & Hlen & Hnth); [lia|]. rewrite seq_S, map_app, fold_left_app, E. cbn [map fold_left Nat.add rbind].
    assert (Ll : len l' = len l) by (unfold len; congruence).
    rewrite py_setitem_in by lia. eexists. split; [reflexivity|].
    assert (Lr : forall j, len (repeat x j) = Z.of_nat j) by (intros j; unfold len; rewrite repeat_length; reflexivity).
    assert (Nr : forall j i, (i < j)%nat -> nth_error (repeat x j) i = Some x).
    { induction j as [|j IHj]; intros [|i] Hi; cbn [repeat nth_error]; try lia; [reflexivity|]. apply IHj. lia. }
    split; [rewrite upd_length; exact Hlen|]. intros i. rewrite nth_error_upd, Hnth, !Lr. unfold len in *.
    destruct (Nat.eqb_spec i (Z.to_nat (d + Z.of_nat k))) as [->|Hi].
    + destruct (Nat.ltb_spec (Z.to_nat (d + Z.of_nat k)) (length l')); [|lia].
      replace ((d <=? Z.of_nat (Z.to_nat (d + Z.of_nat k))) && (Z.of_nat (Z.to_nat (d + Z.of_nat k)) <? d + Z.of_nat (S k)))
        with true by lia. rewrite Nr by lia. reflexivity.
    + destruct ((d <=? Z.of_nat i) && (Z.of_nat i <? d + Z.of_nat k)) eqn:C1;
        destruct ((d <=? Z.of_nat i) && (Z.of_nat i <? d + Z.of_nat (S k))) eqn:C2; try lia; [|reflexivity].
      rewrite !Nr by lia. reflexivity.
Qed.

Lemma misc_store F host m o args fr r V s : about_to_run m (IOp o args) fr -> is_control o = false ->
  num_op F o = None -> load_op o = None -> store_op o = None ->
  exec_misc (fr_module fr) o args (mkb (k_store m) (fr_locals fr) (k_value m)) = (r, mkb s (fr_locals fr) V) ->
  step F host m = (r, with_store (moved_on m V) s).
Proof.
  intros Hr Hc H1 H2 H3 E. apply (step_basic_store F host m _ args fr _ _ _ Hr Hc). rewrite misc_run by assumption. exact E.
Qed.
Lemma misc_pure F host m o args fr r V : about_to_run m (IOp o args) fr -> is_control o = false ->
  num_op F o = None -> load_op o = None -> store_op o = None ->
  exec_misc (fr_module fr) o args (mkb (k_store m) (fr_locals fr) (k_value m)) = (r, mkb (k_store m) (fr_locals fr) V) ->
  step F host m = (r, moved_on m V).
Proof.
  intros Hr Hc H1 H2 H3 E. apply (step_basic_pure F host m _ args fr _ _ Hr Hc). rewrite misc_run by assumption. exact E.
Qed.
Lemma misc_locals F host m o args fr r V l : about_to_run m (IOp o args) fr -> is_control o = false ->
  num_op F o = None -> load_op o = None -> store_op o = None ->
  exec_misc (fr_module fr) o args (mkb (k_store m) (fr_locals fr) (k_value m)) = (r, mkb (k_store m) l V) ->
  step F host m = (r, with_locals (moved_on m V) l).
Proof.
  intros Hr Hc H1 H2 H3 E. rewrite (step_basic F host m o args fr Hr Hc), misc_run by assumption. rewrite E.
  reflexivity.
Qed.

Lemma fill_step F host m args fr a mem vn vx vd V :
  about_to_run m (IOp O_memory_fill args) fr -> the_memory m fr a mem ->
  k_value m = vn :: vx :: vd :: V -> val_wf vn -> val_wf vx -> val_wf vd ->
  if low 32 vd + low 32 vn <=? len (mi_data mem)
  then exists d', overwritten (mi_data mem) d' (low 32 vd) (repeat (low 8 vx) (Z.to_nat (low 32 vn))) /\
       step F host m = (Ok tt, with_store (moved_on m V) (with_mem (k_store m) a (mkmem (mi_type mem) d' (mi_size mem))))
  else exists e, step F host m = (Err e, moved_on m V).
Proof.
  intros Hr [Hm Ha] Hv Hwn Hwx Hwd.
  assert (X : py_index (v_data vx) 0 = Ok (low 8 vx)).
  { rewrite (py_index_in _ 0 0) by (rewrite wf_len by exact Hwx; lia). f_equal.
    rewrite (lane_index _ 0) by (rewrite ?wf_len by exact Hwx; try lia; apply Hwx). unfold lane, low.
    rewrite Z.mul_0_r. change (2 ^ 0) with 1. rewrite Z.div_1_r. reflexivity. }
  pose proof (low_nonneg 32 vn ltac:(lia)). pose proof (low_nonneg 32 vd ltac:(lia)).
  destruct (Z.leb_spec (low 32 vd + low 32 vn) (len (mi_data mem))) as [H1|H1].
  - destruct (fill_loop_ok (mi_data mem) (low 32 vd) (low 32 vn) (low 8 vx)) as (d' & E & O); try lia.
    exists d'. split; [exact O|]. apply (misc_store F host m _ args fr _ _ _ Hr); try reflexivity. rewrite Hv. unfold exec_misc.
    erewrite bind_ok by exact (mod_addr_run _ _ _ _ m_mems 0 _ Hm).
    erewrite bind_ok by (apply get_mem_run, Ha).
    erewrite bind_ok by (apply pop_u32_run, Hwn). erewrite bind_ok by apply pop_run.
    rewrite X. erewrite bind_ok by apply lift_run. erewrite bind_ok by (apply pop_u32_run, Hwd).
    erewrite bind_ok by (apply assert_true; lia). rewrite E. erewrite bind_ok by apply lift_run.
    exact (put_mem_run _ _ _ a mem _ Ha).
  - exists EAssert. apply (misc_pure F host m _ args fr _ _ Hr); try reflexivity. rewrite Hv. unfold exec_misc.
    erewrite bind_ok by exact (mod_addr_run _ _ _ _ m_mems 0 _ Hm).
    erewrite bind_ok by (apply get_mem_run, Ha).
    erewrite bind_ok by (apply pop_u32_run, Hwn). erewrite bind_ok by apply pop_run.
    rewrite X. erewrite bind_ok by apply lift_run. erewrite bind_ok by (apply pop_u32_run, Hwd).
    erewrite bind_err by (apply assert_false; lia). reflexivity.
Qed.

Lemma over_range {A} (d src : list A) dst s n : 0 <= dst -> 0 <= s -> 0 <= n -> s + n <= len src -> dst + n <= len d ->
  overwritten d (py_slice_set d dst (dst + n) (py_slice src s (s + n))) dst (range_of src s n).
Proof.
  intros H1 H2 H3 H4 H5. rewrite range_of_slice by lia. pose proof (overwritten_slice d dst (range_of src s n) H1) as P.
  rewrite len_range_of in P by lia. apply P, H5.
Qed.

Lemma copy_step F host m args fr a mem vn vs vd V :
  about_to_run m (IOp O_memory_copy args) fr -> the_memory m fr a mem ->
  k_value m = vn :: vs :: vd :: V -> val_wf vn -> val_wf vs -> val_wf vd ->
  if (low 32 vs + low 32 vn <=? len (mi_data mem)) && (low 32 vd + low 32 vn <=? len (mi_data mem))
  then exists d', overwritten (mi_data mem) d' (low 32 vd) (range_of (mi_data mem) (low 32 vs) (low 32 vn)) /\
       step F host m = (Ok tt, with_store (moved_on m V) (with_mem (k_store m) a (mkmem (mi_type mem) d' (mi_size mem))))
  else exists e, step F host m = (Err e, moved_on m V).
Proof.
  intros Hr [Hm Ha] Hv Hwn Hws Hwd.
  pose proof (low_nonneg 32 vn ltac:(lia)). pose proof (low_nonneg 32 vs ltac:(lia)). pose proof (low_nonneg 32 vd ltac:(lia)).
  destruct (Z.leb_spec (low 32 vs + low 32 vn) (len (mi_data mem))) as [H2|H2];
    [destruct (Z.leb_spec (low 32 vd + low 32 vn) (len (mi_data mem))) as [H3|H3]|]; cbn [andb].
  1: { eexists. split; [apply over_range; assumption|].
    apply (misc_store F host m _ args fr _ _ _ Hr); try reflexivity. rewrite Hv. unfold exec_misc.
    erewrite bind_ok by exact (mod_addr_run _ _ _ _ m_mems 0 _ Hm).
    erewrite bind_ok by (apply get_mem_run, Ha).
    erewrite bind_ok by (apply pop_u32_run, Hwn). erewrite bind_ok by (apply pop_u32_run, Hws).
    erewrite bind_ok by (apply pop_u32_run, Hwd). erewrite bind_ok by (apply assert_true; lia).
    erewrite bind_ok by (apply assert_true; lia). exact (put_mem_run _ _ _ a mem _ Ha). }
  all: exists EAssert; apply (misc_pure F host m _ args fr _ _ Hr); try reflexivity; rewrite Hv; unfold exec_misc.
  all: erewrite bind_ok by exact (mod_addr_run _ _ _ _ m_mems 0 _ Hm).
  all: erewrite bind_ok by (apply get_mem_run, Ha).
  all: erewrite bind_ok by (apply pop_u32_run, Hwn); erewrite bind_ok by (apply pop_u32_run, Hws).
  all: erewrite bind_ok by (apply pop_u32_run, Hwd).
  - erewrite bind_ok by (apply assert_true; lia). erewrite bind_err by (apply assert_false; lia). reflexivity.
  - erewrite bind_err by (apply assert_false; lia). reflexivity.
Qed.

Lemma init_step F host m args fr j a mem b d vn vs vd V :
  about_to_run m (IOp O_memory_init args) fr -> nth_error args 0 = Some (AInt (Z.of_nat j)) ->
  the_memory m fr a mem -> the_data m fr j b d ->
  k_value m = vn :: vs :: vd :: V -> val_wf vn -> val_wf vs -> val_wf vd ->
  if (low 32 vs + low 32 vn <=? len d) && (low 32 vd + low 32 vn <=? len (mi_data mem))
  then exists d', overwritten (mi_data mem) d' (low 32 vd) (range_of d (low 32 vs) (low 32 vn)) /\
       step F host m = (Ok tt, with_store (moved_on m V) (with_mem (k_store m) a (mkmem (mi_type mem) d' (mi_size mem))))
  else exists e, step F host m = (Err e, moved_on m V).
Proof.
  intros Hr Ho [Hm Ha] (da & Hda & Hb & Hd) Hv Hwn Hws Hwd.
  pose proof (low_nonneg 32 vn ltac:(lia)). pose proof (low_nonneg 32 vs ltac:(lia)). pose proof (low_nonneg 32 vd ltac:(lia)).
  destruct (Z.leb_spec (low 32 vs + low 32 vn) (len d)) as [H2|H2];
    [destruct (Z.leb_spec (low 32 vd + low 32 vn) (len (mi_data mem))) as [H3|H3]|]; cbn [andb].
  1: { eexists. split; [apply over_range; assumption|].
    apply (misc_store F host m _ args fr _ _ _ Hr); try reflexivity. rewrite Hv. unfold exec_misc.
    erewrite bind_ok by exact (mod_addr_run _ _ _ _ m_mems 0 _ Hm).
    erewrite bind_ok by (apply get_mem_run, Ha).
    erewrite bind_ok by exact (arg_run _ _ _ args 0 _ Ho).
    erewrite bind_ok by (apply mod_addr_run, Hda).
    erewrite bind_ok by (apply get_data_run, Hb). erewrite bind_ok by (apply get_blob_run, Hd).
    erewrite bind_ok by (apply pop_u32_run, Hwn). erewrite bind_ok by (apply pop_u32_run, Hws).
    erewrite bind_ok by (apply pop_u32_run, Hwd). erewrite bind_ok by (apply assert_true; lia).
    erewrite bind_ok by (apply assert_true; lia). exact (put_mem_run _ _ _ a mem _ Ha). }
  all: exists EAssert; apply (misc_pure F host m _ args fr _ _ Hr); try reflexivity; rewrite Hv; unfold exec_misc.
  all: erewrite bind_ok by exact (mod_addr_run _ _ _ _ m_mems 0 _ Hm).
  all: erewrite bind_ok by (apply get_mem_run, Ha).
  all: erewrite bind_ok by exact (arg_run _ _ _ args 0 _ Ho).
  all: erewrite bind_ok by (apply mod_addr_run, Hda).
  all: erewrite bind_ok by (apply get_data_run, Hb); erewrite bind_ok by (apply get_blob_run, Hd).
  all: erewrite bind_ok by (apply pop_u32_run, Hwn); erewrite bind_ok by (apply pop_u32_run, Hws).
  all: erewrite bind_ok by (apply pop_u32_run, Hwd).
  - erewrite bind_ok by (apply assert_true; lia). erewrite bind_err by (apply assert_false; lia). reflexivity.
  - erewrite bind_err by (apply assert_false; lia). reflexivity.
Qed.
Lemma data_drop_step F host m args fr j b d :
  about_to_run m (IOp O_data_drop args) fr -> nth_error args 0 = Some (AInt (Z.of_nat j)) -> the_data m fr j b d ->
  step F host m = (Ok tt, with_store (moved_on m (k_value m)) (with_blob (k_store m) b [])).
Proof.
  intros Hr Ho (da & Hda & Hb & Hd). apply (misc_store F host m _ args fr _ _ _ Hr); try reflexivity. unfold exec_misc.
  erewrite bind_ok by exact (arg_run _ _ _ args 0 _ Ho).
  erewrite bind_ok by (apply mod_addr_run, Hda).
  erewrite bind_ok by (apply get_data_run, Hb). apply put_blob_run.
Qed.
Lemma elem_drop_step F host m args fr j a e :
  about_to_run m (IOp O_elem_drop args) fr -> nth_error args 0 = Some (AInt (Z.of_nat j)) -> the_elem m fr j a e ->
  step F host m = (Ok tt, with_store (moved_on m (k_value m)) (with_elem (k_store m) a (mkelem (li_type e) []))).
Proof.
  intros Hr Ho [Ha He]. apply (misc_store F host m _ args fr _ _ _ Hr); try reflexivity. unfold exec_misc.
  erewrite bind_ok by exact (arg_run _ _ _ args 0 _ Ho).
  erewrite bind_ok by (apply mod_addr_run, Ha).
  erewrite bind_ok by (apply get_elem_run, He). exact (put_elem_run _ _ _ a e _ He).
Qed.

(* ---- tables ---- *)
Lemma table_get_step F host m args fr j a t v V :
  about_to_run m (IOp O_table_get args) fr -> nth_error args 0 = Some (AInt (Z.of_nat j)) -> the_table m fr j a t ->
  k_value m = v :: V -> val_wf v ->
  match nth_error (ti_elem t) (Z.to_nat (low 32 v)) with
  | Some r => step F host m = (Ok tt, moved_on m (r :: V))
  | None => exists e, step F host m = (Err e, moved_on m V)
  end.
Proof.
  intros Hr Ho [Ha Ht] Hv Hw. pose proof (low_nonneg 32 v ltac:(lia)).
  assert (E : step F host m = (rmap (fun _ => tt) (py_index (ti_elem t) (low 32 v)),
     moved_on m (match py_index (ti_elem t) (low 32 v) with Ok r => r :: V | Err _ => V end))).
  { apply (misc_pure F host m _ args fr _ _ Hr); try reflexivity. rewrite Hv. unfold exec_misc.
    erewrite bind_ok by exact (arg_run _ _ _ args 0 _ Ho).
    erewrite bind_ok by (apply mod_addr_run, Ha). erewrite bind_ok by (apply get_tab_run, Ht).
    erewrite bind_ok by (apply pop_u32_run, Hw). unfold pushr, bind, lift, push.
    destruct (py_index (ti_elem t) (low 32 v)); reflexivity. }
  rewrite py_index_nonneg in E by lia. destruct (nth_error (ti_elem t) (Z.to_nat (low 32 v))); [exact E|].
  eexists. exact E.
Qed.
Lemma over_one {A} (d : list A) k x : 0 <= k < len d -> overwritten d (upd d (Z.to_nat k) x) k [x].
Proof.
  intros Hk. split; [apply upd_length|]. intros i. rewrite nth_error_upd. change (len [x]) with 1. unfold len in Hk.
  destruct (Nat.eqb_spec i (Z.to_nat k)) as [->|Hi].
  - destruct (Nat.ltb_spec (Z.to_nat k) (length d)); [|lia].
    replace ((k <=? Z.of_nat (Z.to_nat k)) && (Z.of_nat (Z.to_nat k) <? k + 1)) with true by lia.
    rewrite Nat.sub_diag. reflexivity.
  - replace ((k <=? Z.of_nat i) && (Z.of_nat i <? k + 1)) with false by lia. reflexivity.
Qed.
Lemma vt_eqb_refl t : vt_eqb t t = true.
Proof. apply Z.eqb_refl. Qed.
Lemma table_set_step F host m args fr j a t r v V :
  about_to_run m (IOp O_table_set args) fr -> nth_error args 0 = Some (AInt (Z.of_nat j)) -> the_table m fr j a t ->
  k_value m = r :: v :: V -> val_wf v -> v_type r = tt_type (ti_type t) ->
  if low 32 v <? len (ti_elem t)
  then exists l', overwritten (ti_elem t) l' (low 32 v) [r] /\
       step F host m = (Ok tt, with_store (moved_on m V) (with_table (k_store m) a (mktab (ti_type t) l' (ti_size t))))
  else exists e, step F host m = (Err e, moved_on m V).
Proof.
  intros Hr Ho [Ha Ht] Hv Hw Hty. pose proof (low_nonneg 32 v ltac:(lia)).
  destruct (Z.ltb_spec (low 32 v) (len (ti_elem t))) as [H1|H1].
  - eexists. split; [apply over_one; lia|].
    apply (misc_store F host m _ args fr _ _ _ Hr); try reflexivity. rewrite Hv. unfold exec_misc.
    erewrite bind_ok by exact (arg_run _ _ _ args 0 _ Ho).
    erewrite bind_ok by (apply mod_addr_run, Ha). erewrite bind_ok by (apply get_tab_run, Ht).
    erewrite bind_ok by apply pop_run. erewrite bind_ok by (apply assert_true; rewrite Hty; apply vt_eqb_refl).
    erewrite bind_ok by (apply pop_u32_run, Hw). rewrite py_setitem_in by lia. erewrite bind_ok by apply lift_run.
    exact (put_tab_run _ _ _ a t _ Ht).
  - exists EIndex. apply (misc_pure F host m _ args fr _ _ Hr); try reflexivity. rewrite Hv. unfold exec_misc.
    erewrite bind_ok by exact (arg_run _ _ _ args 0 _ Ho).
    erewrite bind_ok by (apply mod_addr_run, Ha). erewrite bind_ok by (apply get_tab_run, Ht).
    erewrite bind_ok by apply pop_run. erewrite bind_ok by (apply assert_true; rewrite Hty; apply vt_eqb_refl).
    erewrite bind_ok by (apply pop_u32_run, Hw).
    assert (E : py_setitem (ti_elem t) (low 32 v) r = Err EIndex).
    { unfold py_setitem. destruct (Z.ltb_spec (low 32 v) 0); [lia|]. destruct (Z.leb_spec (len (ti_elem t)) (low 32 v)); [|lia].
      rewrite orb_true_r. reflexivity. }
    rewrite E. reflexivity.
Qed.
Lemma table_size_step F host m args fr j a t :
  about_to_run m (IOp O_table_size args) fr -> nth_error args 0 = Some (AInt (Z.of_nat j)) -> the_table m fr j a t ->
  0 <= ti_size t < 2 ^ 31 ->
  step F host m = (Ok tt, moved_on m (num_val T_i32 (ti_size t) :: k_value m)).
Proof.
  intros Hr Ho [Ha Ht] Hs. apply (misc_pure F host m _ args fr _ _ Hr); try reflexivity. unfold exec_misc.
  erewrite bind_ok by exact (arg_run _ _ _ args 0 _ Ho).
  erewrite bind_ok by (apply mod_addr_run, Ha). erewrite bind_ok by (apply get_tab_run, Ht).
  apply pushr_run, enc_i32, small_enc; [lia|exact Hs].
Qed.
Lemma table_grow_step F host m args fr j a t v r V :
  about_to_run m (IOp O_table_grow args) fr -> nth_error args 0 = Some (AInt (Z.of_nat j)) -> the_table m fr j a t ->
  0 <= ti_size t < 2 ^ 31 -> k_value m = v :: r :: V -> val_wf v -> v_type r = tt_type (ti_type t) ->
  let n := low 32 v in
  let max := l_m (tt_limits (ti_type t)) in
  if (ti_size t + n <=? 1024) && ((max =? 0) || (ti_size t + n <=? max))
  then step F host m = (Ok tt, with_store (moved_on m (num_val T_i32 (ti_size t) :: V))
         (with_table (k_store m) a (mktab (ti_type t) (ti_elem t ++ repeat r (Z.to_nat n)) (ti_size t + n))))
  else step F host m = (Ok tt, moved_on m (num_val T_i32 (2 ^ 32 - 1) :: V)).
Proof.
  intros Hr Ho [Ha Ht] Hs Hv Hw Hty n max.
  pose proof (fun R V' S => misc_store F host m O_table_grow args fr R V' S Hr eq_refl eq_refl eq_refl eq_refl) as E.
  rewrite Hv in E. unfold exec_misc in E.
  erewrite bind_ok in E by exact (arg_run _ _ _ args 0 _ Ho).
  erewrite bind_ok in E by (apply mod_addr_run, Ha). erewrite bind_ok in E by (apply get_tab_run, Ht).
  erewrite bind_ok in E by (apply pop_u32_run, Hw). erewrite bind_ok in E by apply pop_run. fold n max in E.
  destruct ((ti_size t + n <=? 1024) && ((max =? 0) || (ti_size t + n <=? max))) eqn:C.
  - assert (G : tab_grow t n r = Ok (mktab (ti_type t) (ti_elem t ++ repeat r (Z.to_nat n)) (ti_size t + n))).
    { unfold tab_grow. fold max. replace (if max =? 0 then Ok tt else py_assert (ti_size t + n <=? max)) with (@Ok unit tt)
        by (destruct (max =? 0); [reflexivity|]; destruct (ti_size t + n <=? max); [reflexivity|]; cbn [orb] in C; lia).
      cbn [rbind]. rewrite Hty, vt_eqb_refl. reflexivity. }
    apply E. rewrite G. erewrite bind_ok by apply lift_run. erewrite bind_ok by (apply (put_tab_run _ _ _ a t), Ht).
    apply pushr_run, enc_i32, small_enc; [lia|exact Hs].
  - rewrite (E (Ok tt) (num_val T_i32 (2 ^ 32 - 1) :: V) (k_store m) (pushr_run _ _ _ _ _ minus_one)).
    exact (f_equal _ (with_store_same (moved_on m _))).
Qed.
Lemma table_fill_step F host m args fr j a t vn r vd V :
  about_to_run m (IOp O_table_fill args) fr -> nth_error args 0 = Some (AInt (Z.of_nat j)) -> the_table m fr j a t ->
  k_value m = vn :: r :: vd :: V -> val_wf vn -> val_wf vd ->
  if low 32 vd + low 32 vn <=? len (ti_elem t)
  then exists l', overwritten (ti_elem t) l' (low 32 vd) (repeat r (Z.to_nat (low 32 vn))) /\
       step F host m = (Ok tt, with_store (moved_on m V) (with_table (k_store m) a (mktab (ti_type t) l' (ti_size t))))
  else exists e, step F host m = (Err e, moved_on m V).
Proof.
  intros Hr Ho [Ha Ht] Hv Hwn Hwd.
  pose proof (low_nonneg 32 vn ltac:(lia)). pose proof (low_nonneg 32 vd ltac:(lia)).
  destruct (Z.leb_spec (low 32 vd + low 32 vn) (len (ti_elem t))) as [H1|H1].
  - destruct (fill_loop_ok (ti_elem t) (low 32 vd) (low 32 vn) r) as (l' & E & O); try lia.
    exists l'. split; [exact O|]. apply (misc_store F host m _ args fr _ _ _ Hr); try reflexivity. rewrite Hv. unfold exec_misc.
    erewrite bind_ok by exact (arg_run _ _ _ args 0 _ Ho).
    erewrite bind_ok by (apply mod_addr_run, Ha). erewrite bind_ok by (apply get_tab_run, Ht).
    erewrite bind_ok by (apply pop_u32_run, Hwn). erewrite bind_ok by apply pop_run.
    erewrite bind_ok by (apply pop_u32_run, Hwd).
    erewrite bind_ok by (apply assert_true; lia). rewrite E. erewrite bind_ok by apply lift_run.
    exact (put_tab_run _ _ _ a t _ Ht).
  - exists EAssert. apply (misc_pure F host m _ args fr _ _ Hr); try reflexivity. rewrite Hv. unfold exec_misc.
    erewrite bind_ok by exact (arg_run _ _ _ args 0 _ Ho).
    erewrite bind_ok by (apply mod_addr_run, Ha). erewrite bind_ok by (apply get_tab_run, Ht).
    erewrite bind_ok by (apply pop_u32_run, Hwn). erewrite bind_ok by apply pop_run.
    erewrite bind_ok by (apply pop_u32_run, Hwd).
    erewrite bind_err by (apply assert_false; lia). reflexivity.
Qed.
Lemma table_copy_step F host m args fr i j a b t u vn vs vd V :
  about_to_run m (IOp O_table_copy args) fr ->
  nth_error args 0 = Some (AInt (Z.of_nat i)) -> nth_error args 1 = Some (AInt (Z.of_nat j)) ->
  the_table m fr i a t -> the_table m fr j b u ->
  k_value m = vn :: vs :: vd :: V -> val_wf vn -> val_wf vs -> val_wf vd ->
  if (low 32 vs + low 32 vn <=? len (ti_elem u)) && (low 32 vd + low 32 vn <=? len (ti_elem t))
  then exists l', overwritten (ti_elem t) l' (low 32 vd) (range_of (ti_elem u) (low 32 vs) (low 32 vn)) /\
       step F host m = (Ok tt, with_store (moved_on m V) (with_table (k_store m) a (mktab (ti_type t) l' (ti_size t))))
  else exists e, step F host m = (Err e, moved_on m V).
Proof.
  intros Hr Ho Ho1 [Ha Ht] [Hb Hu] Hv Hwn Hws Hwd.
  pose proof (low_nonneg 32 vn ltac:(lia)). pose proof (low_nonneg 32 vs ltac:(lia)). pose proof (low_nonneg 32 vd ltac:(lia)).
  destruct (Z.leb_spec (low 32 vs + low 32 vn) (len (ti_elem u))) as [H2|H2];
    [destruct (Z.leb_spec (low 32 vd + low 32 vn) (len (ti_elem t))) as [H3|H3]|]; cbn [andb].
  1: { eexists. split; [apply over_range; assumption|].
    apply (misc_store F host m _ args fr _ _ _ Hr); try reflexivity. rewrite Hv. unfold exec_misc.
    erewrite bind_ok by exact (arg_run _ _ _ args 0 _ Ho).
    erewrite bind_ok by (apply mod_addr_run, Ha). erewrite bind_ok by (apply get_tab_run, Ht).
    erewrite bind_ok by exact (arg_run _ _ _ args 1 _ Ho1).
    erewrite bind_ok by (apply mod_addr_run, Hb). erewrite bind_ok by (apply get_tab_run, Hu).
    erewrite bind_ok by (apply pop_u32_run, Hwn). erewrite bind_ok by (apply pop_u32_run, Hws).
    erewrite bind_ok by (apply pop_u32_run, Hwd). erewrite bind_ok by (apply assert_true; lia).
    erewrite bind_ok by (apply assert_true; lia). exact (put_tab_run _ _ _ a t _ Ht). }
  all: exists EAssert; apply (misc_pure F host m _ args fr _ _ Hr); try reflexivity; rewrite Hv; unfold exec_misc.
  all: erewrite bind_ok by exact (arg_run _ _ _ args 0 _ Ho).
  all: erewrite bind_ok by (apply mod_addr_run, Ha); erewrite bind_ok by (apply get_tab_run, Ht).
  all: erewrite bind_ok by exact (arg_run _ _ _ args 1 _ Ho1).
  all: erewrite bind_ok by (apply mod_addr_run, Hb); erewrite bind_ok by (apply get_tab_run, Hu).
  all: erewrite bind_ok by (apply pop_u32_run, Hwn); erewrite bind_ok by (apply pop_u32_run, Hws).
  all: erewrite bind_ok by (apply pop_u32_run, Hwd).
  - erewrite bind_ok by (apply assert_true; lia). erewrite bind_err by (apply assert_false; lia). reflexivity.
  - erewrite bind_err by (apply assert_false; lia). reflexivity.
Qed.
Lemma table_init_step F host m args fr i j a b t e vn vs vd V :
  about_to_run m (IOp O_table_init args) fr ->
  nth_error args 0 = Some (AInt (Z.of_nat j)) -> nth_error args 1 = Some (AInt (Z.of_nat i)) ->
  the_table m fr i a t -> the_elem m fr j b e ->
  k_value m = vn :: vs :: vd :: V -> val_wf vn -> val_wf vs -> val_wf vd ->
  if (low 32 vs + low 32 vn <=? len (li_data e)) && (low 32 vd + low 32 vn <=? len (ti_elem t))
  then exists l', overwritten (ti_elem t) l' (low 32 vd) (range_of (li_data e) (low 32 vs) (low 32 vn)) /\
       step F host m = (Ok tt, with_store (moved_on m V) (with_table (k_store m) a (mktab (ti_type t) l' (ti_size t))))
  else exists x, step F host m = (Err x, moved_on m V).
Proof.
  intros Hr Ho Ho1 [Ha Ht] [Hb Hu] Hv Hwn Hws Hwd.
  pose proof (low_nonneg 32 vn ltac:(lia)). pose proof (low_nonneg 32 vs ltac:(lia)). pose proof (low_nonneg 32 vd ltac:(lia)).
  destruct (Z.leb_spec (low 32 vs + low 32 vn) (len (li_data e))) as [H2|H2];
    [destruct (Z.leb_spec (low 32 vd + low 32 vn) (len (ti_elem t))) as [H3|H3]|]; cbn [andb].
  1: { eexists. split; [apply over_range; assumption|].
    apply (misc_store F host m _ args fr _ _ _ Hr); try reflexivity. rewrite Hv. unfold exec_misc.
    erewrite bind_ok by exact (arg_run _ _ _ args 1 _ Ho1).
    erewrite bind_ok by (apply mod_addr_run, Ha). erewrite bind_ok by (apply get_tab_run, Ht).
    erewrite bind_ok by exact (arg_run _ _ _ args 0 _ Ho).
    erewrite bind_ok by (apply mod_addr_run, Hb). erewrite bind_ok by (apply get_elem_run, Hu).
    erewrite bind_ok by (apply pop_u32_run, Hwn). erewrite bind_ok by (apply pop_u32_run, Hws).
    erewrite bind_ok by (apply pop_u32_run, Hwd). erewrite bind_ok by (apply assert_true; lia).
    erewrite bind_ok by (apply assert_true; lia). exact (put_tab_run _ _ _ a t _ Ht). }
  all: exists EAssert; apply (misc_pure F host m _ args fr _ _ Hr); try reflexivity; rewrite Hv; unfold exec_misc.
  all: erewrite bind_ok by exact (arg_run _ _ _ args 1 _ Ho1).
  all: erewrite bind_ok by (apply mod_addr_run, Ha); erewrite bind_ok by (apply get_tab_run, Ht).
  all: erewrite bind_ok by exact (arg_run _ _ _ args 0 _ Ho).
  all: erewrite bind_ok by (apply mod_addr_run, Hb); erewrite bind_ok by (apply get_elem_run, Hu).
  all: erewrite bind_ok by (apply pop_u32_run, Hwn); erewrite bind_ok by (apply pop_u32_run, Hws).
  all: erewrite bind_ok by (apply pop_u32_run, Hwd).
  - erewrite bind_ok by (apply assert_true; lia). erewrite bind_err by (apply assert_false; lia). reflexivity.
  - erewrite bind_err by (apply assert_false; lia). reflexivity.
Qed.

(* ---- parametric and variable instructions ---- *)
Lemma drop_step F host m args fr v V : about_to_run m (IOp O_drop args) fr -> k_value m = v :: V ->
  step F host m = (Ok tt, moved_on m V).
Proof. intros Hr Hv. apply (misc_pure F host m _ args fr _ _ Hr); try reflexivity. rewrite Hv. reflexivity. Qed.
Lemma select_step F host m args fr vc vb va V : about_to_run m (IOp O_select args) fr ->
  k_value m = vc :: vb :: va :: V -> val_wf vc ->
  step F host m = (Ok tt, moved_on m ((if low 32 vc =? 0 then vb else va) :: V)).
Proof.
  intros Hr Hv Hw. rewrite (step_num3 F host m O_select args fr _ va vb vc V Hr eq_refl Hv).
  cbn [rbind]. rewrite into_i32_ok by exact Hw. cbn [rbind]. rewrite <- low_uval.
  pose proof (low_range 32 vc ltac:(lia)) as Hrg. pose proof (sgn_eqz 32 (low 32 vc) ltac:(lia) Hrg) as E. rewrite sgn_signed in E. rewrite E.
  destruct (low 32 vc =? 0); reflexivity.
Qed.
Lemma vt_code_inj a b : vt_code a = vt_code b -> a = b.
Proof. destruct a, b; intros H; try reflexivity; discriminate H. Qed.
Lemma select_type_step F host m args fr t ts vc vb va V : about_to_run m (IOp O_select_type args) fr ->
  nth_error args 0 = Some (AList (vt_code t :: ts)) ->
  k_value m = vc :: vb :: va :: V -> val_wf vc -> v_type va = t -> v_type vb = t ->
  step F host m = (Ok tt, moved_on m ((if low 32 vc =? 0 then vb else va) :: V)).
Proof.
  intros Hr Ho Hv Hw Hta Htb. rewrite (step_num3 F host m O_select_type args fr _ va vb vc V Hr eq_refl Hv).
  assert (E0 : arg_list args 0 = Ok (vt_code t :: ts)) by (unfold arg_list; rewrite (py_index_0 _ _ Ho); reflexivity).
  cbn [rbind]. rewrite into_i32_ok by exact Hw. cbn [rbind]. rewrite <- low_uval. rewrite E0. cbn [rbind].
  change (py_index (vt_code t :: ts) 0) with (Ok (vt_code t)). cbn [rbind]. rewrite Hta, Htb, Z.eqb_refl. cbn [py_assert rbind].
  pose proof (low_range 32 vc ltac:(lia)) as Hrg. pose proof (sgn_eqz 32 (low 32 vc) ltac:(lia) Hrg) as E. rewrite sgn_signed in E. rewrite E.
  destruct (low 32 vc =? 0); reflexivity.
Qed.
Lemma local_get_step F host m args fr j v : about_to_run m (IOp O_local_get args) fr ->
  nth_error args 0 = Some (AInt (Z.of_nat j)) -> nth_error (fr_locals fr) j = Some v ->
  step F host m = (Ok tt, moved_on m (v :: k_value m)).
Proof.
  intros Hr Ho Hl. apply (misc_pure F host m _ args fr _ _ Hr); try reflexivity. unfold exec_misc.
  erewrite bind_ok by exact (arg_run _ _ _ args 0 _ Ho). unfold bind, get_locals. cbn [b_locals].
  apply pushr_run, py_index_nth, Hl.
Qed.
Lemma local_set_step F host m args fr j x v V : about_to_run m (IOp O_local_set args) fr ->
  nth_error args 0 = Some (AInt (Z.of_nat j)) -> nth_error (fr_locals fr) j = Some x -> k_value m = v :: V ->
  exists l', overwritten (fr_locals fr) l' (Z.of_nat j) [v] /\
    step F host m = (Ok tt, with_locals (moved_on m V) l').
Proof.
  intros Hr Ho Hl Hv. exists (upd (fr_locals fr) j v). split.
  - assert (j < length (fr_locals fr))%nat by (apply nth_error_Some; congruence).
    rewrite <- (Nat2Z.id j) at 1. apply over_one. unfold len. lia.
  - apply (misc_locals F host m _ args fr _ _ _ Hr); try reflexivity. unfold exec_misc. rewrite Hv.
    erewrite bind_ok by apply pop_run.
    erewrite bind_ok by exact (arg_run _ _ _ args 0 _ Ho). unfold bind, get_locals, lift, put_locals. cbn [b_locals].
    rewrite (py_setitem_nth _ _ _ _ Hl). reflexivity.
Qed.
Lemma local_tee_step F host m args fr j x v V : about_to_run m (IOp O_local_tee args) fr ->
  nth_error args 0 = Some (AInt (Z.of_nat j)) -> nth_error (fr_locals fr) j = Some x -> k_value m = v :: V ->
  exists l', overwritten (fr_locals fr) l' (Z.of_nat j) [v] /\
    step F host m = (Ok tt, with_locals (moved_on m (v :: V)) l').
Proof.
  intros Hr Ho Hl Hv. exists (upd (fr_locals fr) j v). split.
  - assert (j < length (fr_locals fr))%nat by (apply nth_error_Some; congruence).
    rewrite <- (Nat2Z.id j) at 1. apply over_one. unfold len. lia.
  - apply (misc_locals F host m _ args fr _ _ _ Hr); try reflexivity. unfold exec_misc. rewrite Hv.
    unfold bind at 1, top. cbn [b_value].
    erewrite bind_ok by exact (arg_run _ _ _ args 0 _ Ho). unfold bind, get_locals, lift, put_locals. cbn [b_locals].
    rewrite (py_setitem_nth _ _ _ _ Hl). reflexivity.
Qed.
Lemma global_get_step F host m args fr j a g : about_to_run m (IOp O_global_get args) fr ->
  nth_error args 0 = Some (AInt (Z.of_nat j)) -> the_global m fr j a g ->
  step F host m = (Ok tt, moved_on m (gi_data g :: k_value m)).
Proof.
  intros Hr Ho [Ha Hg]. apply (misc_pure F host m _ args fr _ _ Hr); try reflexivity. unfold exec_misc.
  erewrite bind_ok by exact (arg_run _ _ _ args 0 _ Ho). erewrite bind_ok by (apply mod_addr_run, Ha).
  erewrite bind_ok by (apply get_glob_run, Hg). reflexivity.
Qed.
Lemma global_set_step F host m args fr j a g v V : about_to_run m (IOp O_global_set args) fr ->
  nth_error args 0 = Some (AInt (Z.of_nat j)) -> the_global m fr j a g -> k_value m = v :: V ->
  if gi_mut g =? 1
  then step F host m = (Ok tt, with_store (moved_on m V) (with_global (k_store m) a (mkglob v (gi_mut g))))
  else exists e, step F host m = (Err e, moved_on m (v :: V)).
Proof.
  intros Hr Ho [Ha Hg] Hv. destruct (gi_mut g =? 1) eqn:Em.
  - apply (misc_store F host m _ args fr _ _ _ Hr); try reflexivity. unfold exec_misc. rewrite Hv.
    erewrite bind_ok by exact (arg_run _ _ _ args 0 _ Ho). erewrite bind_ok by (apply mod_addr_run, Ha).
    erewrite bind_ok by (apply get_glob_run, Hg). erewrite bind_ok by (apply assert_true, Em).
    erewrite bind_ok by apply pop_run. exact (put_glob_run _ _ _ a g _ Hg).
  - exists EAssert. apply (misc_pure F host m _ args fr _ _ Hr); try reflexivity. unfold exec_misc. rewrite Hv.
    erewrite bind_ok by exact (arg_run _ _ _ args 0 _ Ho). erewrite bind_ok by (apply mod_addr_run, Ha).
    erewrite bind_ok by (apply get_glob_run, Hg). erewrite bind_err by (apply assert_false, Em). reflexivity.
Qed.

(* ---- MemInst.put and friends ---- *)
Lemma put_in m addr d : 0 <= addr -> addr + len d <= len (mi_data m) ->
  exists d', mem_put m addr d = mkmem (mi_type m) d' (mi_size m) /\ overwritten (mi_data m) d' addr d.
Proof. intros H1 H2. eexists. split; [reflexivity|]. apply overwritten_slice; assumption. Qed.
Lemma put_u_in w m addr z : 1 <= w -> 0 <= addr -> addr + w <= len (mi_data m) -> urange (8 * w) z ->
  exists d', mem_put_u w m addr z = Ok (mkmem (mi_type m) d' (mi_size m)) /\
    overwritten (mi_data m) d' addr (to_le (Z.to_nat w) z).
Proof.
  intros Hw H1 H2 Hz. unfold mem_put_u, pack_u, to_bytes_u. rewrite urange_true by exact Hz. cbn [rbind].
  eexists. split; [reflexivity|]. apply store_over; lia.
Qed.
Lemma put_i_in w m addr z : 1 <= w -> 0 <= addr -> addr + w <= len (mi_data m) -> srange (8 * w) z ->
  exists d', mem_put_i w m addr z = Ok (mkmem (mi_type m) d' (mi_size m)) /\
    overwritten (mi_data m) d' addr (to_le (Z.to_nat w) z).
Proof.
  intros Hw H1 H2 Hz. unfold mem_put_i, pack_s, to_bytes_s. rewrite srange_true by exact Hz. cbn [rbind].
  eexists. split; [reflexivity|]. apply store_over; lia.
Qed.
Lemma put_u8_in m addr z : 0 <= addr < len (mi_data m) -> urange 8 z ->
  exists d', mem_put_u8 m addr z = Ok (mkmem (mi_type m) d' (mi_size m)) /\ overwritten (mi_data m) d' addr [z].
Proof.
  intros H1 [Hz1 Hz2]. change (2 ^ 8) with 256 in Hz2. unfold mem_put_u8.
  replace ((0 <=? z) && (z <? 256)) with true by lia. cbn [rbind]. rewrite py_setitem_in by exact H1. cbn [rbind].
  eexists. split; [reflexivity|]. apply over_one, H1.
Qed.

(* ---- segments after a drop ---- *)
Lemma upd_same {A} (l : list A) k x : nth_error l k = Some x -> upd l k x = l.
Proof.
  intros H. apply nth_error_ext. intros i. rewrite nth_error_upd. destruct (Nat.eqb_spec i k) as [->|]; [|reflexivity].
  assert (k < length l)%nat by (apply nth_error_Some; congruence). destruct (Nat.ltb_spec k (length l)); [congruence|lia].
Qed.
Lemma over_nil {A} (d d' : list A) a : overwritten d d' a [] -> d' = d.
Proof.
  intros [_ H]. apply nth_error_ext. intros i. rewrite H. change (len (@nil A)) with 0.
  replace ((a <=? Z.of_nat i) && (Z.of_nat i <? a + 0)) with false by lia. reflexivity.
Qed.
Lemma with_table_same s a t : nth_error (s_tabl s) a = Some t -> with_table s a t = s.
Proof. intros H. unfold with_table, set_s_tabl. rewrite (upd_same _ _ _ H). destruct s; reflexivity. Qed.
Lemma with_mem_same s a t : nth_error (s_mems s) a = Some t -> with_mem s a t = s.
Proof. intros H. unfold with_mem, set_s_mems. rewrite (upd_same _ _ _ H). destruct s; reflexivity. Qed.
Lemma range_of_nil {A} (s n : Z) : range_of (@nil A) s n = [].
Proof. unfold range_of. rewrite skipn_nil, firstn_nil. reflexivity. Qed.

Lemma table_init_empty F host m args fr i j a b t e vn vs vd V :
  about_to_run m (IOp O_table_init args) fr ->
  nth_error args 0 = Some (AInt (Z.of_nat j)) -> nth_error args 1 = Some (AInt (Z.of_nat i)) ->
  the_table m fr i a t -> the_elem m fr j b e -> li_data e = [] ->
  k_value m = vn :: vs :: vd :: V -> val_wf vn -> val_wf vs -> val_wf vd ->
  (low 32 vs = 0 -> low 32 vn = 0 -> low 32 vd <= len (ti_elem t) -> step F host m = (Ok tt, moved_on m V)) /\
  (low 32 vs <> 0 \/ low 32 vn <> 0 -> exists x, step F host m = (Err x, moved_on m V)).
Proof.
  intros Hr Ho Ho1 Ht He Hnil Hv Hwn Hws Hwd.
  pose proof (table_init_step F host m args fr i j a b t e vn vs vd V Hr Ho Ho1 Ht He Hv Hwn Hws Hwd) as H.
  pose proof (low_nonneg 32 vn ltac:(lia)). pose proof (low_nonneg 32 vs ltac:(lia)).
  rewrite Hnil in H. change (len (@nil val)) with 0 in H. split.
  - intros E1 E2 E3. rewrite E1, E2, !Z.add_0_r in H. destruct (Z.leb_spec (low 32 vd) (len (ti_elem t))); [|lia].
    change (0 <=? 0) with true in H. cbn [andb] in H. destruct H as (l' & Hov & H). rewrite range_of_nil in Hov. apply over_nil in Hov. subst l'.
    rewrite H. f_equal. rewrite <- (with_store_same (moved_on m V)) at 2. f_equal. cbn [k_store moved_on].
    replace (mktab (ti_type t) (ti_elem t) (ti_size t)) with t by (destruct t; reflexivity).
    apply with_table_same, Ht.
  - intros Hn. replace (low 32 vs + low 32 vn <=? 0) with false in H by lia. exact H.
Qed.
Lemma memory_init_empty F host m args fr j a mem b vn vs vd V :
  about_to_run m (IOp O_memory_init args) fr -> nth_error args 0 = Some (AInt (Z.of_nat j)) ->
  the_memory m fr a mem -> the_data m fr j b [] ->
  k_value m = vn :: vs :: vd :: V -> val_wf vn -> val_wf vs -> val_wf vd ->
  (low 32 vs = 0 -> low 32 vn = 0 -> low 32 vd <= len (mi_data mem) -> step F host m = (Ok tt, moved_on m V)) /\
  (low 32 vs <> 0 \/ low 32 vn <> 0 -> exists x, step F host m = (Err x, moved_on m V)).
Proof.
  intros Hr Ho Hm He Hv Hwn Hws Hwd.
  pose proof (init_step F host m args fr j a mem b [] vn vs vd V Hr Ho Hm He Hv Hwn Hws Hwd) as H.
  pose proof (low_nonneg 32 vn ltac:(lia)). pose proof (low_nonneg 32 vs ltac:(lia)).
  change (len (@nil Z)) with 0 in H. split.
  - intros E1 E2 E3. rewrite E1, E2, !Z.add_0_r in H. destruct (Z.leb_spec (low 32 vd) (len (mi_data mem))); [|lia].
    change (0 <=? 0) with true in H. cbn [andb] in H. destruct H as (l' & Hov & H). rewrite range_of_nil in Hov. apply over_nil in Hov. subst l'.
    rewrite H. f_equal. rewrite <- (with_store_same (moved_on m V)) at 2. f_equal. cbn [k_store moved_on].
    replace (mkmem (mi_type mem) (mi_data mem) (mi_size mem)) with mem by (destruct mem; reflexivity).
    apply with_mem_same, Hm.
  - intros Hn. replace (low 32 vs + low 32 vn <=? 0) with false in H by lia. exact H.
Qed.

(* one drop: what it does to every segment *)
Lemma elem_drop_all F host m args fr j a e :
  about_to_run m (IOp O_elem_drop args) fr -> nth_error args 0 = Some (AInt (Z.of_nat j)) -> the_elem m fr j a e ->
  exists E, step F host m = (Ok tt, with_store (moved_on m (k_value m)) (set_s_elem (k_store m) E)) /\
    nth_error E a = Some (mkelem (li_type e) []) /\
    forall b, b <> a -> nth_error E b = nth_error (s_elem (k_store m)) b.
Proof.
  intros Hr Ho He. eexists. split; [exact (elem_drop_step F host m args fr j a e Hr Ho He)|].
  assert (a < length (s_elem (k_store m)))%nat by (apply nth_error_Some; destruct He; congruence).
  split; [|intros b Hb]; rewrite nth_error_upd.
  - rewrite Nat.eqb_refl. destruct (Nat.ltb_spec a (length (s_elem (k_store m)))); [reflexivity|lia].
  - destruct (Nat.eqb_spec b a); [contradiction|reflexivity].
Qed.
Lemma data_drop_all F host m args fr j b d :
  about_to_run m (IOp O_data_drop args) fr -> nth_error args 0 = Some (AInt (Z.of_nat j)) -> the_data m fr j b d ->
  exists s', step F host m = (Ok tt, with_store (moved_on m (k_value m)) (set_s_blob (k_store m) s')) /\
    nth_error s' b = Some [] /\
    forall c, c <> b -> nth_error s' c = nth_error (s_blob (k_store m)) c.
Proof.
  intros Hr Ho Hd. eexists. split; [exact (data_drop_step F host m args fr j b d Hr Ho Hd)|].
  assert (b < length (s_blob (k_store m)))%nat by (apply nth_error_Some; destruct Hd as (? & _ & _ & ?); congruence).
  split; [|intros c Hc]; rewrite nth_error_upd.
  - rewrite Nat.eqb_refl. destruct (Nat.ltb_spec b (length (s_blob (k_store m)))); [reflexivity|lia].
  - destruct (Nat.eqb_spec c b); [contradiction|reflexivity].
Qed.

Lemma slice_set_end {A} (l : list A) a b v : len l <= a -> a <= b -> py_slice_set l a b v = l ++ v.
Proof.
  intros H1 H2. pose proof (len_nonneg l). unfold py_slice_set, py_bound.
  destruct (Z.ltb_spec a 0); [lia|]. destruct (Z.ltb_spec b 0); [lia|].
  rewrite firstn_all2, skipn_all2 by (unfold len in *; lia). rewrite app_nil_r. reflexivity.
Qed.
Lemma put_out :
  (forall m addr d, len (mi_data m) <= addr -> mi_data (mem_put m addr d) = mi_data m ++ d) /\
  (forall w m addr z, 1 <= w -> len (mi_data m) <= addr -> urange (8 * w) z ->
     exists m', mem_put_u w m addr z = Ok m' /\ len (mi_data m') = len (mi_data m) + w).
Proof.
  split.
  - intros m addr d H. apply slice_set_end; [exact H|]. pose proof (len_nonneg d). lia.
  - intros w m addr z Hw H Hz. unfold mem_put_u, pack_u, to_bytes_u. rewrite urange_true by exact Hz. cbn [rbind].
    eexists. split; [reflexivity|]. cbn [mi_data set_mi_data]. rewrite slice_set_end by lia.
    unfold len. rewrite app_length, to_le_length. lia.
Qed.
