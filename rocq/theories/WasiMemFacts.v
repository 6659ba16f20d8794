(* How the WASI methods read and write the caller's memory. *)
From Coq Require Import ZArith List Bool Lia ZifyBool ZifyNat.
From Verif Require Import Py Syntax Store Val Machine Utf8 Os Wasi SpecMem SpecFormat SpecWasi PyFacts MemFacts WasiFacts.
Import ListNotations.
Open Scope Z_scope.

(* [d] with [bs] written at position [p] *)
Definition splice {A} (d : list A) (p : Z) (bs : list A) : list A := firstn (Z.to_nat p) d ++ bs ++ skipn (Z.to_nat (p + len bs)) d.
Lemma splice_slice {A} (d : list A) p bs : 0 <= p -> p + len bs <= len d -> py_slice_set d p (p + len bs) bs = splice d p bs.
Proof. intros H1 H2. pose proof (len_nonneg bs). now rewrite py_slice_set_in by lia. Qed.
Lemma splice_over {A} (d : list A) p bs : 0 <= p -> p + len bs <= len d -> overwritten d (splice d p bs) p bs.
Proof. intros H1 H2. rewrite <- splice_slice by assumption. now apply overwritten_slice. Qed.
Lemma len_splice {A} (d : list A) p bs : 0 <= p -> p + len bs <= len d -> len (splice d p bs) = len d.
Proof. intros H1 H2. eapply overwritten_len, splice_over; assumption. Qed.
Lemma bytes_splice d p bs : bytes d -> bytes bs -> bytes (splice d p bs).
Proof. intros H1 H2. unfold splice. rewrite !bytes_app. repeat split; [now apply bytes_firstn|exact H2|now apply bytes_skipn]. Qed.
Lemma nth_splice {A} (d : list A) p bs i : 0 <= p -> p + len bs <= len d ->
  nth_error (splice d p bs) i = if (p <=? Z.of_nat i) && (Z.of_nat i <? p + len bs) then nth_error bs (i - Z.to_nat p) else nth_error d i.
Proof. intros H1 H2. apply (splice_over d p bs H1 H2). Qed.
Lemma splice_app {A} (d : list A) p a b : 0 <= p -> p + len a + len b <= len d ->
  splice (splice d p a) (p + len a) b = splice d p (a ++ b).
Proof.
  intros H1 H2. pose proof (len_nonneg a). pose proof (len_nonneg b). apply nth_error_ext. intros i.
  rewrite nth_splice by (rewrite ?len_splice by lia; lia). rewrite !nth_splice by (rewrite ?len_app; lia). rewrite len_app.
  destruct ((p <=? Z.of_nat i) && (Z.of_nat i <? p + (len a + len b))) eqn:E.
  - destruct ((p + len a <=? Z.of_nat i) && (Z.of_nat i <? p + len a + len b)) eqn:E1.
    + rewrite nth_error_app2 by (unfold len in *; lia). f_equal. unfold len in *. lia.
    + replace ((p <=? Z.of_nat i) && (Z.of_nat i <? p + len a)) with true by lia.
      rewrite nth_error_app1 by (unfold len in *; lia). reflexivity.
  - replace ((p + len a <=? Z.of_nat i) && (Z.of_nat i <? p + len a + len b)) with false by lia.
    now replace ((p <=? Z.of_nat i) && (Z.of_nat i <? p + len a)) with false by lia.
Qed.
Lemma splice_comm {A} (d : list A) p a q b : 0 <= p -> p + len a <= len d -> 0 <= q -> q + len b <= len d ->
  apart p (len a) q (len b) -> splice (splice d p a) q b = splice (splice d q b) p a.
Proof.
  intros H1 H2 H3 H4 D. unfold apart in D. apply nth_error_ext. intros i.
  rewrite !nth_splice by (rewrite ?len_splice by lia; lia).
  destruct ((q <=? Z.of_nat i) && (Z.of_nat i <? q + len b)) eqn:E; [|reflexivity].
  now replace ((p <=? Z.of_nat i) && (Z.of_nat i <? p + len a)) with false by lia.
Qed.
Lemma splice_nil {A} (d : list A) p : 0 <= p <= len d -> splice d p [] = d.
Proof.
  intros H. apply nth_error_ext. intros i. rewrite nth_splice by (change (len (@nil A)) with 0; lia). change (len (@nil A)) with 0.
  now replace ((p <=? Z.of_nat i) && (Z.of_nat i <? p + 0)) with false by lia.
Qed.
Lemma splice_read {A} (d : list A) p bs : 0 <= p -> p + len bs <= len d -> range_of (splice d p bs) p (len bs) = bs.
Proof. intros H1 H2. eapply overwritten_read; [exact H1|exact H2|now apply splice_over]. Qed.
Lemma splice_other {A} (d : list A) p bs q n : 0 <= p -> p + len bs <= len d -> 0 <= q -> 0 <= n -> apart q n p (len bs) ->
  range_of (splice d p bs) q n = range_of d q n.
Proof. intros H1 H2 H3 H4 D. eapply overwritten_other; [exact H3|exact H4|now apply splice_over|exact D]. Qed.

(* ---- the memory in the world ---- *)
Lemma set_guest_parts w a d : w_self (set_guest w a d) = w_self w /\ w_log (set_guest w a d) = w_log w /\ w_pipes (set_guest w a d) = w_pipes w.
Proof. unfold set_guest. now destruct (nth_error _ a). Qed.
Lemma guest_bytes w a d : guest w a d -> bytes d.
Proof. now intros (fr & rest & mem & _ & _ & _ & H). Qed.
Lemma the_mem_guest w a d : guest w a d -> the_mem w = (Ok (Z.of_nat a), w).
Proof.
  intros (fr & rest & mem & F & (M1 & M2) & _). unfold the_mem. rewrite F, (py_index_0 _ _ M1). cbn [Py.rbind].
  now rewrite (py_index_nth _ _ _ M2).
Qed.
Lemma guest_set w a d d' : guest w a d -> bytes d' -> guest (set_guest w a d') a d'.
Proof.
  intros (fr & rest & mem & F & (M1 & M2) & _) B. unfold set_guest. rewrite M2. exists fr, rest, (mkmem (mi_type mem) d' (mi_size mem)). repeat split; [exact F|exact M1| |exact B].
  cbn. rewrite nth_error_upd, Nat.eqb_refl. assert (a < length (s_mems (k_store (w_mach w))))%nat by (apply nth_error_Some; congruence).
  now destruct (Nat.ltb_spec a (length (s_mems (k_store (w_mach w))))); [|lia].
Qed.
Lemma upd_twice' {A} (l : list A) : forall k x y, upd (upd l k x) k y = upd l k y.
Proof. induction l as [|z l IH]; intros [|k] x y; cbn [upd]; try reflexivity. now rewrite IH. Qed.
Lemma upd_id {A} (l : list A) : forall k x, nth_error l k = Some x -> upd l k x = l.
Proof. induction l as [|z l IH]; intros [|k] x H; try discriminate; cbn [upd]; [now injection H as ->|]. now rewrite IH. Qed.
Lemma set_set w a d1 d2 : set_guest (set_guest w a d1) a d2 = set_guest w a d2.
Proof.
  unfold set_guest. destruct (nth_error (s_mems (k_store (w_mach w))) a) as [mem|] eqn:E; [|now rewrite E]. cbn.
  rewrite nth_error_upd, Nat.eqb_refl. assert (a < length (s_mems (k_store (w_mach w))))%nat by (apply nth_error_Some; congruence).
  destruct (Nat.ltb_spec a (length (s_mems (k_store (w_mach w))))); [|lia]. cbn. unfold with_mem. cbn. now rewrite upd_twice'.
Qed.
Lemma set_same w a d : guest w a d -> set_guest w a d = w.
Proof.
  intros (fr & rest & mem & F & (M1 & M2) & <- & _). unfold set_guest. rewrite M2. destruct w as [s lg p k]. cbn in *.
  destruct k as [st v l f]. cbn in *. f_equal. f_equal. destruct st. unfold with_mem. cbn in *. f_equal. apply upd_id. rewrite M2. now destruct mem.
Qed.
Lemma write_guest w a d f d' : guest w a d -> (forall mem, mi_data mem = d -> f mem = Ok (set_mi_data mem d')) ->
  write_mem (Z.of_nat a) f w = (Ok tt, set_guest w a d').
Proof.
  intros (fr & rest & mem & F & (M1 & M2) & D & _) H. unfold write_mem, set_guest. rewrite (py_index_nth _ _ _ M2). cbn [Py.rbind].
  rewrite (H mem D). cbn [Py.rbind]. rewrite (py_setitem_nth _ _ _ _ M2), M2. reflexivity.
Qed.
Lemma read_guest {A} w a d (f : meminst -> res A) r : guest w a d -> (forall mem, mi_data mem = d -> f mem = r) ->
  read_mem (Z.of_nat a) f w = (r, w).
Proof.
  intros (fr & rest & mem & F & (M1 & M2) & D & _) H. unfold read_mem. rewrite (py_index_nth _ _ _ M2). cbn [Py.rbind]. now rewrite (H mem D).
Qed.
Lemma put_bytes_at w a d p bs : guest w a d -> 0 <= p -> p + len bs <= len d ->
  put_bytes (Z.of_nat a) p bs w = (Ok tt, set_guest w a (splice d p bs)).
Proof.
  intros G H1 H2. apply write_guest with (d := d); [exact G|]. intros mem D. unfold mem_put. now rewrite D, splice_slice.
Qed.
Lemma put_u_at w a d k p v : guest w a d -> 0 <= k -> 0 <= p -> p + k <= len d -> 0 <= v < 2 ^ (8 * k) ->
  write_mem (Z.of_nat a) (fun x => mem_put_u k x p v) w = (Ok tt, set_guest w a (splice d p (to_le (Z.to_nat k) v))).
Proof.
  intros G Hk H1 H2 H3. apply write_guest with (d := d); [exact G|]. intros mem D. unfold mem_put_u, pack_u, to_bytes_u.
  replace ((0 <=? v) && (v <? 2 ^ (8 * k))) with true by (generalize dependent (2 ^ (8 * k)); intros; lia). cbn [Py.rbind].
  rewrite D, <- splice_slice; rewrite ?len_to_le; try lia. now rewrite Z2Nat.id.
Qed.
Lemma put_u8_at w a d p v : guest w a d -> 0 <= p < len d -> 0 <= v < 256 ->
  put_u8 (Z.of_nat a) p v w = (Ok tt, set_guest w a (splice d p [v])).
Proof.
  intros G H1 H3. apply write_guest with (d := d); [exact G|]. intros mem D. unfold mem_put_u8.
  replace ((0 <=? v) && (v <? 256)) with true by lia. cbn [Py.rbind]. rewrite D, py_setitem_in by exact H1. cbn [Py.rbind]. do 2 f_equal.
  apply nth_error_ext. intros i. rewrite nth_error_upd, nth_splice by (change (len [v]) with 1; lia). change (len [v]) with 1.
  destruct (Nat.eqb_spec i (Z.to_nat p)) as [->|N].
  - replace ((p <=? Z.of_nat (Z.to_nat p)) && (Z.of_nat (Z.to_nat p) <? p + 1)) with true by lia.
    rewrite Nat.sub_diag. cbn [nth_error]. unfold len in H1. destruct (Nat.ltb_spec (Z.to_nat p) (length d)); [reflexivity|lia].
  - now replace ((p <=? Z.of_nat i) && (Z.of_nat i <? p + 1)) with false by lia.
Qed.
Lemma get_u_at w a d k p : guest w a d -> 0 <= k -> 0 <= p -> p + k <= len d ->
  read_mem (Z.of_nat a) (fun x => mem_get_u k x p) w = (Ok (le_of (range_of d p k)), w).
Proof.
  intros G Hk H1 H2. apply read_guest with (d := d); [exact G|]. intros mem D. unfold mem_get_u, unpack_u.
  rewrite D, range_of_slice, len_range_of by lia. now rewrite Z.eqb_refl.
Qed.
Lemma get_bytes_at w a d p n : guest w a d -> 0 <= p -> 0 <= n -> p + n <= len d ->
  get_bytes (Z.of_nat a) p n w = (Ok (range_of d p n), w).
Proof.
  intros G Hn H1 H2. apply read_guest with (d := d); [exact G|]. intros mem D. unfold mem_get. rewrite D. now rewrite range_of_slice by lia.
Qed.

(* ---- UTF-8 ---- *)
Lemma encode_scalar c : scalar c -> encode_char c = Ok (utf8_char c).
Proof.
  unfold scalar, encode_char, utf8_char. intros H. replace ((c <? 0) || (0x10ffff <? c)) with false by lia. destruct (c <? 0x80) eqn:E1; [reflexivity|]. destruct (c <? 0x800) eqn:E2; [reflexivity|].
  replace ((0xd800 <=? c) && (c <? 0xe000)) with false by lia. destruct (c <? 0x10000); reflexivity.
Qed.
Lemma encode_utf8 s : Forall scalar s -> utf8_encode s = Ok (utf8 s).
Proof.
  induction 1 as [|c s H _ IH]; [reflexivity|]. cbn [utf8_encode]. rewrite (encode_scalar c H), IH. reflexivity.
Qed.
Lemma ascii_scalar s : ascii s -> Forall scalar s.
Proof. apply Forall_impl. intros c H. unfold scalar. lia. Qed.
Lemma ascii_utf8 s : ascii s -> utf8 s = s.
Proof.
  induction 1 as [|c s H _ IH]; [reflexivity|]. unfold utf8 in *. cbn [map concat]. rewrite IH. unfold utf8_char.
  now replace (c <? 0x80) with true by lia.
Qed.

(* ---- args_get and environ_get ---- *)
Lemma len_words l : len (words l) = 4 * len l.
Proof. unfold words. induction l as [|x l IH]; [reflexivity|]. cbn [map concat]. rewrite len_app, len_to_le, IH, len_cons. lia. Qed.
Lemma len_starts l : forall b, len (starts b l) = len l.
Proof. induction l as [|s l IH]; intros b; [reflexivity|]. cbn [starts]. now rewrite !len_cons, IH. Qed.
Lemma bytes_words l : bytes (words l).
Proof. unfold words. induction l as [|x l IH]; [constructor|]. cbn [map concat]. apply bytes_app. split; [apply to_le_bytes|exact IH]. Qed.
Lemma ascii_bytes s : ascii s -> bytes s.
Proof. apply Forall_impl. intros c H. unfold byte. lia. Qed.
Lemma block_ascii s l : ascii s -> block (s :: l) = (s ++ [0]) ++ block l.
Proof. intros H. unfold block. cbn [map concat]. now rewrite ascii_utf8. Qed.
Lemma bytes_block l : Forall ascii l -> bytes (block l).
Proof.
  induction 1 as [|s l H _ IH]; [constructor|]. rewrite block_ascii by exact H. apply bytes_app. split; [|exact IH].
  apply bytes_app. split; [now apply ascii_bytes|]. constructor; [unfold byte; lia|constructor].
Qed.
Lemma put_strings_ok a l : Forall ascii l -> forall w d ptr buf, guest w a d -> len d <= 2 ^ 32 ->
  0 <= ptr -> ptr + 4 * len l <= len d -> 0 <= buf -> buf + len (block l) <= len d ->
  apart ptr (4 * len l) buf (len (block l)) ->
  put_strings (Z.of_nat a) l ptr buf w =
    (Ok tt, set_guest w a (splice (splice d ptr (words (starts buf l))) buf (block l))).
Proof.
  induction 1 as [|s l As _ IH]; intros w d ptr buf G Ld P1 P2 B1 B2 AP.
  { cbn [put_strings starts]. change (words []) with (@nil Z). change (block []) with (@nil Z) in *. change (len (@nil Z)) with 0 in B2.
    change (len (@nil name)) with 0 in P2. rewrite (splice_nil d ptr) by lia. rewrite (splice_nil d buf) by lia. now rewrite set_same. }
  assert (len (block (s :: l)) = len s + 1 + len (block l)) as LB by (rewrite block_ascii by exact As; rewrite !len_app; reflexivity).
  rewrite LB in *. rewrite len_cons in *. pose proof (len_nonneg s). pose proof (len_nonneg l). pose proof (len_nonneg (block l)).
  unfold apart in AP. cbn [put_strings]. unfold bind at 1.
  unfold put_u32. rewrite (put_u_at w a d 4 ptr buf G) by (change (2 ^ (8 * 4)) with (2 ^ 32); lia).
  change (Z.to_nat 4) with 4%nat. set (d1 := splice d ptr (to_le 4 buf)).
  assert (len d1 = len d) as L1 by (unfold d1; apply len_splice; rewrite ?len_to_le; lia).
  assert (bytes d) as Bd by exact (guest_bytes _ _ _ G).
  assert (guest (set_guest w a d1) a d1) as G1 by (eapply guest_set; [exact G|]; apply bytes_splice; [exact Bd|apply to_le_bytes]).
  unfold bind at 1. rewrite encode_utf8 by now apply ascii_scalar. unfold lift. rewrite ascii_utf8 by exact As.
  unfold bind at 1. rewrite (put_bytes_at _ a d1 buf s G1) by lia. rewrite set_set.
  set (d2 := splice d1 buf s). assert (len d2 = len d) as L2 by (unfold d2; rewrite len_splice; lia).
  assert (guest (set_guest w a d2) a d2) as G2.
  { eapply guest_set; [exact G|]. apply bytes_splice; [exact (guest_bytes _ _ _ G1)|now apply ascii_bytes]. }
  unfold bind at 1. rewrite (put_u8_at _ a d2 (buf + len s) 0 G2) by lia. rewrite set_set.
  set (d3 := splice d2 (buf + len s) [0]). assert (len d3 = len d) as L3 by (unfold d3; rewrite len_splice; change (len [0]) with 1; lia).
  assert (guest (set_guest w a d3) a d3) as G3.
  { eapply guest_set; [exact G|]. apply bytes_splice; [exact (guest_bytes _ _ _ G2)|]. constructor; [unfold byte; lia|constructor]. }
  assert (d3 = splice d1 buf (s ++ [0])) as E3 by (unfold d3, d2; apply splice_app; change (len [0]) with 1; lia).
  rewrite (IH _ d3 (ptr + 4) (buf + len s + 1) G3) by (unfold apart; lia).
  rewrite set_set. do 2 f_equal. rewrite E3. unfold d1. rewrite block_ascii by exact As.
  replace (words (starts buf (s :: l))) with (to_le 4 buf ++ words (starts (buf + len s + 1) l))
    by (cbn [starts]; rewrite ascii_utf8 by exact As; reflexivity).
  set (ws := words (starts (buf + len s + 1) l)). assert (len ws = 4 * len l) as LW by (unfold ws; now rewrite len_words, len_starts).
  assert (len (s ++ [0]) = len s + 1) as LS by (rewrite len_app; reflexivity).
  assert (len (to_le 4 buf) = 4) as L4 by now rewrite len_to_le.
  assert (len (splice d ptr (to_le 4 buf)) = len d) as L5 by (apply len_splice; lia).
  rewrite (splice_comm (splice d ptr (to_le 4 buf)) buf (s ++ [0])) by (unfold apart; lia).
  replace (ptr + 4) with (ptr + len (to_le 4 buf)) by lia. rewrite splice_app by lia.
  assert (len (splice d ptr (to_le 4 buf ++ ws)) = len d) as L6 by (apply len_splice; rewrite ?len_app; lia).
  replace (buf + len s + 1) with (buf + len (s ++ [0])) by lia.
  rewrite splice_app by lia. reflexivity.
Qed.
Lemma args_layout w a d l ptr buf : Forall ascii l -> guest w a d -> len d <= 2 ^ 32 ->
  0 <= ptr -> ptr + 4 * len l <= len d -> 0 <= buf -> buf + len (block l) <= len d ->
  apart ptr (4 * len l) buf (len (block l)) ->
  exists d1 d', overwritten d d1 ptr (words (starts buf l)) /\ overwritten d1 d' buf (block l) /\
  put_strings (Z.of_nat a) l ptr buf w = (Ok tt, set_guest w a d').
Proof.
  intros As G Ld P1 P2 B1 B2 AP. exists (splice d ptr (words (starts buf l))). eexists. split; [|split].
  - apply splice_over; [exact P1|]. now rewrite len_words, len_starts.
  - apply splice_over; [exact B1|]. rewrite len_splice; rewrite ?len_words, ?len_starts; assumption.
  - now apply put_strings_ok.
Qed.
Lemma sum_sizes l : Forall ascii l -> forall z, fold_left Z.add (map (fun e => len e + 1) l) z = z + len (block l).
Proof.
  induction 1 as [|s l As _ IH]; intros z; cbn [map fold_left]; [change (block []) with (@nil Z); change (len (@nil Z)) with 0; lia|].
  rewrite IH, block_ascii by exact As. rewrite !len_app. change (len [0]) with 1. lia.
Qed.
Lemma put_sizes_ok w a d l x0 x1 : Forall ascii l -> guest w a d -> len l < 2 ^ 32 -> len (block l) < 2 ^ 32 ->
  0 <= x0 -> x0 + 4 <= len d -> 0 <= x1 -> x1 + 4 <= len d ->
  exists d1 d', overwritten d d1 x0 (to_le 4 (len l)) /\ overwritten d1 d' x1 (to_le 4 (len (block l))) /\
  put_sizes l x0 x1 w = (Ok [E_SUCCESS], set_guest w a d').
Proof.
  intros As G L1 L2 P1 P2 Q1 Q2. exists (splice d x0 (to_le 4 (len l))). eexists. split; [|split].
  - apply splice_over; [exact P1|]. now rewrite len_to_le.
  - apply splice_over; [exact Q1|]. rewrite len_splice; rewrite ?len_to_le; assumption.
  - unfold put_sizes. unfold bind at 1. rewrite (the_mem_guest w a d G). unfold bind at 1. pose proof (len_nonneg l). pose proof (len_nonneg (block l)).
    unfold put_u32 at 1. rewrite (put_u_at w a d 4 x0 (len l) G) by (change (2 ^ (8 * 4)) with (2 ^ 32); lia).
    change (Z.to_nat 4) with 4%nat. set (d1 := splice d x0 (to_le 4 (len l))).
    assert (guest (set_guest w a d1) a d1) as G1.
    { eapply guest_set; [exact G|]. apply bytes_splice; [exact (guest_bytes _ _ _ G)|apply to_le_bytes]. }
    assert (len d1 = len d) as Ld by (unfold d1; rewrite len_splice; rewrite ?len_to_le; lia).
    rewrite sum_sizes by exact As. rewrite Z.add_0_l.
    unfold bind at 1. unfold put_u32. rewrite (put_u_at _ a d1 4 x1 (len (block l)) G1) by (change (2 ^ (8 * 4)) with (2 ^ 32); lia).
    rewrite set_set. reflexivity.
Qed.
