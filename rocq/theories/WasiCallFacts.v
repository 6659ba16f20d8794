(* Single calls: path_open, fd_fdstat_set_rights, fd_renumber, fd_seek, fd_prestat_get. *)
From Coq Require Import ZArith List Bool Lia ZifyBool ZifyNat.
From Verif Require Import Py Syntax Store Val Machine Utf8 Os Wasi SpecMem SpecFormat SpecWasi PyFacts MemFacts DecodeFacts
  WasiFacts WasiTableFacts WasiMemFacts WasiIoFacts.
Import ListNotations.
Open Scope Z_scope.

Lemma guest_logged' w c r a d : guest w a d -> guest (logged w c r) a d.
Proof. intros G. exact G. Qed.
Lemma badf_inv fd k w w' : unless_badf fd k w = (Ok [0], w') -> exists f, is_open w fd f /\ k w = (Ok [0], w').
Proof.
  unfold unless_badf, bind, self. destruct (help_badf (w_self w) fd) eqn:E; [discriminate|]. intros H.
  apply badf_false in E. destruct E as (E0 & f & E1 & E2). exists f. repeat split; try assumption; lia.
Qed.
Lemma need_inv fd bit k w w' f : is_open w fd f -> 0 <= bit -> need fd (2 ^ bit) k w = (Ok [0], w') -> has_right f bit /\ k w = (Ok [0], w').
Proof.
  intros (E & O) B. unfold need, help_perm. unfold bind at 1. unfold bind at 1. rewrite (the_file_at w fd f E). cbn.
  destruct (Z.land (rights_base f) (2 ^ bit) =? 0) eqn:L; [discriminate|]. intros H. split; [|exact H].
  unfold has_right. destruct (Z.testbit (rights_base f) bit) eqn:T; [reflexivity|]. exfalso.
  assert (Z.land (rights_base f) (2 ^ bit) = 0); [|lia].
  apply Z.bits_inj'. intros i Hi. rewrite Z.land_spec, Z.pow2_bits_eqb by exact B. rewrite Z.bits_0. destruct (Z.eqb_spec bit i) as [<-|]; [now rewrite T|apply andb_false_r].
Qed.
Lemma subset_land a b : subset (Z.land a b) a.
Proof. intros i _ H. rewrite Z.land_spec in H. now apply andb_prop in H. Qed.
Lemma subset_refl a : subset a a.
Proof. now intros i _ H. Qed.
Lemma subset_trans a b c : subset a b -> subset b c -> subset a c.
Proof. intros H K i Hi E. now apply K, H. Qed.
Lemma put_u_range w a d k p v w' : guest w a d -> write_mem (Z.of_nat a) (fun x => mem_put_u k x p v) w = (Ok tt, w') -> 0 <= k -> 0 <= v < 2 ^ (8 * k).
Proof.
  intros (fr & rest & mem & F & (M1 & M2) & D & _) H Hk. unfold write_mem in H. rewrite (py_index_nth _ _ _ M2) in H. cbn [Py.rbind] in H.
  unfold mem_put_u, pack_u, to_bytes_u in H. destruct ((0 <=? v) && (v <? 2 ^ (8 * k))) eqn:E; [lia|discriminate].
Qed.

(* a successful path_open *)
Lemma path_open_ok Os w w' a d x0 x1 x2 x3 x4 x5 x6 x7 x8 : guest w a d -> 0 <= x8 -> x8 + 4 <= len d ->
  wasi_call Os F_path_open [x0; x1; x2; x3; x4; x5; x6; x7; x8] w = (Ok [0], w') ->
  exists f g d', is_open w x0 f /\ has_right f 13 /\ p_fd (w_self w') = p_fd (w_self w) ++ [g] /\ wasm_open g = true /\
  subset (rights_base g) x5 /\ subset (rights_root g) x6 /\
  guest w' a d' /\ overwritten d d' x8 (to_le 4 (len (p_fd (w_self w)))) /\ len (p_fd (w_self w)) < 2 ^ 32.
Proof.
  intros G H1 H2 H. cbn [wasi_call] in H. unfold path_open in H. apply badf_inv in H. destruct H as (f & O & H).
  change R_PATH_OPEN with (2 ^ 13) in H. apply (need_inv x0 13 _ w w' f O) in H; [|lia]. destruct H as (R & H).
  unfold bind at 1 in H. rewrite (the_mem_guest w a d G) in H. unfold bind at 1 in H. rewrite (the_file_at w x0 f (proj1 O)) in H.
  unfold bind at 1 in H. destruct (get_str (Z.of_nat a) x2 x3 w) as [[nm|e] w1] eqn:EN; [|discriminate].
  assert (w1 = w) as ->. { unfold get_str, bind, get_bytes, read_mem, lift in EN. destruct (let? x := _ in _); now inversion EN. }
  destruct (existsb (Z.eqb 0) nm); [discriminate|]. unfold unless_escp in H. destruct (help_escp (host_name f) nm); [discriminate|].
  destruct (has x4 8 && _); [discriminate|]. unfold bind at 1, self at 1 in H. unfold ask_try, ask in H. unfold bind at 1 in H.
  set (c1 := OsOpen _ _ _ _) in H. destruct (Os (w_log w) c1) as [|h| | | | | | |e]; try discriminate.
  2:{ destruct e; try discriminate. now destruct (n =? 40). }
  unfold ask_bool, ask in H. unfold bind at 1 2 in H. cbn [w_log] in H.
  match type of H with context [match ?r with RUnit => _ | RInt _ => _ | RBool b => _ | _ => _ end] => set (rd := r) in H end.
  match type of H with context [(match rd with RUnit => ?x | RInt _ => _ | RBool b => _ | _ => _ end)] => idtac end.
  assert (forall w0, (match rd with RBool b => ret b | _ => ret false end : W bool) w0 = (Ok (match rd with RBool b => b | _ => false end), w0)) as ED by (intros; now destruct rd).
  rewrite ED in H. clear ED. set (isdir := match rd with RBool b => b | _ => false end) in H. clearbody isdir.
  destruct (if isdir then (Z.land x5 (Z.lnot R_FD_SEEK), Z.land x6 (Z.lnot R_FD_SEEK)) else (x5, x6)) as (b1, q1) eqn:E1.
  assert (subset b1 x5 /\ subset q1 x6) as (S1 & S2).
  { destruct isdir; injection E1 as <- <-; split; try apply subset_refl; apply subset_land. }
  unfold bind at 1 2 in H. cbn [w_log w_self w_pipes w_mach] in H.
  match type of H with context [match ?r with RUnit => _ | RInt _ => _ | RBool b => _ | _ => _ end] => set (rf := r) in H end.
  assert (forall w0, (match rf with RBool b => ret b | _ => ret false end : W bool) w0 = (Ok (match rf with RBool b => b | _ => false end), w0)) as ED by (intros; now destruct rf).
  rewrite ED in H. clear ED. set (isfile := match rf with RBool b => b | _ => false end) in H. clearbody isfile.
  destruct (if isfile then (Z.land b1 (Z.lnot path_rights), Z.land q1 (Z.lnot path_rights)) else (b1, q1)) as (b2, q2) eqn:E2.
  assert (subset b2 x5 /\ subset q2 x6) as (S3 & S4).
  { destruct isfile; injection E2 as <- <-; split; try assumption; eapply subset_trans; try apply subset_land; assumption. }
  unfold bind at 1 in H. unfold ask_stat, ask in H. unfold bind at 1 in H. cbn [w_log w_self w_pipes w_mach] in H.
  match type of H with context [Os ?l (OsStatFd h)] => set (log := l) in H; set (rs := Os log (OsStatFd h)) in H end.
  destruct rs as [| | | | | |i| |e] eqn:ERS; try discriminate. cbn [ret] in H. unfold ret at 1 in H.
  unfold bind at 1, self at 1 in H. unfold bind at 1 in H. unfold set_fd, bind, self, set_self in H. cbn [w_log w_self w_pipes w_mach p_args p_dirs p_envs p_fd p_return_on_exit] in H.
  match type of H with context [p_fd (w_self w) ++ [?x]] => set (g := x) in H end.
  match type of H with context [put_u32 _ _ _ ?x] => set (w2 := x) in H end.
  destruct (put_u32 (Z.of_nat a) x8 (len (p_fd (w_self w))) w2) as [[[]|e] w3] eqn:EP; [|discriminate]. unfold ret in H. injection H as <-.
  assert (guest w2 a d) as G2 by exact G.
  destruct (put_u_range w2 a d 4 x8 _ w3 G2 EP ltac:(lia)) as (_ & L). change (2 ^ (8 * 4)) with (2 ^ 32) in L.
  pose proof (len_nonneg (p_fd (w_self w))) as L0.
  unfold put_u32 in EP. rewrite (put_u_at w2 a d 4 x8 _ G2) in EP by (change (2 ^ (8 * 4)) with (2 ^ 32); lia). injection EP as <-.
  change (Z.to_nat 4) with 4%nat. set (d' := splice d x8 _).
  exists f, g, d'. destruct (set_guest_parts w2 a d') as (P1 & _).
  split; [exact O|]. split; [exact R|]. split; [now rewrite P1|]. split; [reflexivity|]. split; [exact S3|]. split; [exact S4|].
  split; [|split; [|exact L]].
  - eapply guest_set; [exact G2|]. apply bytes_splice; [exact (guest_bytes _ _ _ G)|apply to_le_bytes].
  - apply splice_over; rewrite ?len_to_le; lia.
Qed.

(* the number given out has never been an entry before *)
Lemma fresh_history Os w0 h1 h2 fd f : entry (history Os w0 h1) fd f -> fd < len (p_fd (w_self (history Os w0 (h1 ++ h2)))).
Proof.
  intros (E0 & E1). unfold history. rewrite fold_left_app. pose proof (length_history Os h2 (history Os w0 h1)) as L.
  unfold history in *. apply nth_lt in E1. unfold len. lia.
Qed.
Lemma entry_new w w' g : p_fd (w_self w') = p_fd (w_self w) ++ [g] -> entry w' (len (p_fd (w_self w))) g.
Proof.
  intros E. split; [apply len_nonneg|]. rewrite E. unfold len. rewrite Nat2Z.id, nth_error_app2 by lia. now rewrite Nat.sub_diag.
Qed.

(* ---- fd_fdstat_set_rights ---- *)
Lemma land_subset a b : Z.land a b = b -> subset b a.
Proof. intros H i Hi T. rewrite <- H, Z.land_spec in T. now apply andb_prop in T. Qed.
Lemma set_rights_eq Os w fd f b r : is_open w fd f -> wasi_call Os F_fd_fdstat_set_rights [fd; b; r] w =
  if negb (Z.land (rights_base f) b =? b) then (Ok [E_NOTCAPABLE], w)
  else if negb (Z.land (rights_root f) r =? r) then (Ok [E_NOTCAPABLE], w)
  else (Ok [E_SUCCESS], with_fd w (upd (p_fd (w_self w)) (Z.to_nat fd) (set_rights f b r))).
Proof.
  intros O. cbn [wasi_call]. unfold fd_fdstat_set_rights. rewrite (pass_badf w fd f _ O). unfold bind at 1. rewrite (the_file_at w fd f (proj1 O)).
  destruct (negb _); [reflexivity|]. destruct (negb _); [reflexivity|]. unfold bind. now rewrite (put_file_at w fd f _ (proj1 O)).
Qed.
Lemma set_rights_call Os w fd f b r : is_open w fd f ->
  wasi_call Os F_fd_fdstat_set_rights [fd; b; r] w = (Ok [E_NOTCAPABLE], w) \/
  (subset b (rights_base f) /\ subset r (rights_root f) /\
   wasi_call Os F_fd_fdstat_set_rights [fd; b; r] w = (Ok [E_SUCCESS], with_fd w (upd (p_fd (w_self w)) (Z.to_nat fd) (set_rights f b r)))).
Proof.
  intros O. rewrite (set_rights_eq Os w fd f b r O).
  destruct (Z.eqb_spec (Z.land (rights_base f) b) b) as [E1|]; [|now left]. destruct (Z.eqb_spec (Z.land (rights_root f) r) r) as [E2|]; [|now left].
  right. split; [now apply land_subset|]. split; [now apply land_subset|]. reflexivity.
Qed.
Lemma subset_land_iff a b : 0 <= a -> 0 <= b -> subset b a -> Z.land a b = b.
Proof.
  intros Ha Hb S. apply Z.bits_inj'. intros i Hi. rewrite Z.land_spec. destruct (Z.testbit b i) eqn:T; [|apply andb_false_r].
  now rewrite (S i Hi T).
Qed.
Lemma set_rights_succeeds Os w fd f b r : is_open w fd f -> 0 <= rights_base f -> 0 <= rights_root f -> 0 <= b -> 0 <= r ->
  subset b (rights_base f) -> subset r (rights_root f) -> fst (wasi_call Os F_fd_fdstat_set_rights [fd; b; r] w) = Ok [E_SUCCESS].
Proof.
  intros O H1 H2 H3 H4 S1 S2. rewrite (set_rights_eq Os w fd f b r O).
  now rewrite (subset_land_iff _ _ H1 H3 S1), (subset_land_iff _ _ H2 H4 S2), !Z.eqb_refl.
Qed.

(* ---- fd_renumber ---- *)
Lemma renumber_self Os w fd f w' : is_open w fd f -> wasi_call Os F_fd_renumber [fd; fd] w = (Ok [E_SUCCESS], w') -> not_open w' fd.
Proof.
  intros O H. cbn [wasi_call] in H. unfold fd_renumber in H. unfold bind at 1, self in H. rewrite (badf_open w fd f O) in H. cbn [orb] in H.
  unfold bind at 1 in H. rewrite (the_file_at w fd f (proj1 O)) in H.
  match type of H with context [bind ?x ?k w] => set (m := x) in H; set (k0 := k) in H end.
  assert (forall w1, w_self w1 = w_self w -> k0 tt w1 = (Ok [E_SUCCESS], w') -> not_open w' fd) as K.
  { intros w1 E K. unfold k0 in K. assert (entry w1 fd f) as E1 by (unfold entry; rewrite E; exact (proj1 O)).
    unfold bind at 1 in K. rewrite (the_file_at w1 fd f E1) in K. unfold bind at 1 in K. rewrite (put_file_at w1 fd f f E1) in K.
    assert (entry (with_fd w1 (upd (p_fd (w_self w1)) (Z.to_nat fd) f)) fd f) as E2.
    { split; [exact (proj1 E1)|]. cbn. apply nth_upd_same with (x := f). exact (proj2 E1). }
    set (w2 := with_fd w1 _) in *. unfold bind at 1 in K. rewrite (the_file_at w2 fd f E2) in K. unfold bind at 1 in K. rewrite (put_file_at w2 fd f _ E2) in K.
    unfold ret in K. injection K as <-. intros g ((G0 & G1) & G2). cbn [with_fd w_self p_fd] in G1. rewrite (nth_upd_same _ _ f) in G1 by exact (proj2 E2). injection G1 as <-. discriminate. }
  unfold bind in H. unfold m in H. destruct (wasm_type f =? T_CHARACTER_DEVICE); [now apply (K w)|].
  unfold ask_unit, bind, ask in H. destruct (Os (w_log w) (OsClose (host_fd f))); try discriminate. exact (K (logged w (OsClose (host_fd f)) RUnit) eq_refl H).
Qed.
Lemma renumber_other Os w fd f fd' g w' : is_open w fd f -> is_open w fd' g -> fd <> fd' ->
  wasi_call Os F_fd_renumber [fd; fd'] w = (Ok [E_SUCCESS], w') ->
  is_open w' fd' f /\ not_open w' fd /\ (forall k e, k <> fd -> k <> fd' -> entry w' k e <-> entry w k e) /\
  w_log w' = if wasm_type g =? T_CHARACTER_DEVICE then w_log w else (OsClose (host_fd g), RUnit) :: w_log w.
Proof.
  intros O O' N H. cbn [wasi_call] in H. unfold fd_renumber in H. unfold bind at 1, self in H. rewrite (badf_open w fd f O), (badf_open w fd' g O') in H. cbn [orb] in H.
  unfold bind at 1 in H. rewrite (the_file_at w fd' g (proj1 O')) in H.
  match type of H with context [bind ?x ?k w] => set (m := x) in H; set (k0 := k) in H end.
  assert (forall w1, w_self w1 = w_self w -> k0 tt w1 = (Ok [E_SUCCESS], w') ->
    is_open w' fd' f /\ not_open w' fd /\ (forall k e, k <> fd -> k <> fd' -> entry w' k e <-> entry w k e) /\ w_log w' = w_log w1) as K.
  { intros w1 E K. unfold k0 in K. assert (entry w1 fd f) as E1 by (unfold entry; rewrite E; exact (proj1 O)).
    assert (entry w1 fd' g) as E1' by (unfold entry; rewrite E; exact (proj1 O')).
    unfold bind at 1 in K. rewrite (the_file_at w1 fd f E1) in K. unfold bind at 1 in K. rewrite (put_file_at w1 fd' g f E1') in K.
    destruct E1 as (A0 & A1), E1' as (B0 & B1).
    assert (entry (with_fd w1 (upd (p_fd (w_self w1)) (Z.to_nat fd') f)) fd f) as E2.
    { split; [exact A0|]. cbn. rewrite nth_upd_other by lia. exact A1. }
    set (w2 := with_fd w1 _) in *. unfold bind at 1 in K. rewrite (the_file_at w2 fd f E2) in K. unfold bind at 1 in K. rewrite (put_file_at w2 fd f _ E2) in K.
    unfold ret in K. injection K as <-. cbn [with_fd w_self p_fd w_log w2]. split; [|split; [|split; [|reflexivity]]].
    - split; [|exact (proj2 O)]. split; [exact B0|]. cbn. rewrite nth_upd_other by lia. apply nth_upd_same with (x := g). exact B1.
    - intros e ((G0 & G1) & G2). cbn in G1. rewrite (nth_upd_same _ _ f) in G1 by exact (proj2 E2). injection G1 as <-. discriminate.
    - intros k e N1 N2. unfold entry. cbn. split; intros (K0 & K1); (split; [exact K0|]).
      + rewrite !nth_upd_other in K1 by lia. now rewrite <- E.
      + rewrite !nth_upd_other by lia. now rewrite E. }
  unfold bind in H. unfold m in H. destruct (wasm_type g =? T_CHARACTER_DEVICE); [now apply (K w)|].
  unfold ask_unit, bind, ask in H. destruct (Os (w_log w) (OsClose (host_fd g))); try discriminate. exact (K (logged w (OsClose (host_fd g)) RUnit) eq_refl H).
Qed.

(* ---- fd_seek ---- *)
Lemma seek_head Os w fd f a d off wh p : is_open w fd f -> wasm_type f <> T_DIRECTORY -> has_right f 2 -> guest w a d ->
  wasi_call Os F_fd_seek [fd; off; wh; p] w =
  (let! ocur := ask_int Os (OsLseek (host_fd f) 0 wh) in
   if ocur + off <? 0 then ret [E_INVAL]
   else let! offs := ask_int Os (OsLseek (host_fd f) off wh) in put_u64 (Z.of_nat a) p offs ;; ret [E_SUCCESS]) w.
Proof.
  intros O T R G. cbn [wasi_call]. unfold fd_seek. rewrite (pass_badf w fd f _ O), (pass_dir w fd f _ O T).
  change R_FD_SEEK with (2 ^ 2). rewrite (pass_need w fd f 2 _ O) by (try lia; exact R).
  unfold bind at 1. rewrite (the_mem_guest w a d G). unfold bind at 1. now rewrite (the_file_at w fd f (proj1 O)).
Qed.
Lemma seek_error Os w fd off wh p e w' : wasi_call Os F_fd_seek [fd; off; wh; p] w = (Ok [e], w') -> e <> E_SUCCESS ->
  w' = w \/ (e = E_INVAL /\ exists f r, is_open w fd f /\ r + off < 0 /\ w' = logged w (OsLseek (host_fd f) 0 wh) (RInt r)).
Proof.
  intros H N. cbn [wasi_call] in H. unfold fd_seek in H. unfold unless_badf in H. unfold bind at 1, self in H.
  destruct (help_badf (w_self w) fd) eqn:EB; [left; now inversion H|]. apply badf_false in EB. destruct EB as (B0 & f & B1 & B2).
  assert (entry w fd f) as E by (split; [lia|exact B1]).
  unfold unless_dir, help_idir in H. unfold bind at 1 2 in H. rewrite (the_file_at w fd f E) in H. unfold ret at 1 in H. destruct (wasm_type f =? T_DIRECTORY); [left; now inversion H|].
  unfold need, help_perm in H. unfold bind at 1 2 in H. rewrite (the_file_at w fd f E) in H. unfold ret at 1 in H. destruct (Z.land (rights_base f) R_FD_SEEK =? 0); [left; now inversion H|].
  unfold bind at 1 in H. destruct (the_mem w) as [[a|e1] w1] eqn:EM; [|discriminate]. pose proof (still_mem w) as SM. rewrite EM in SM. cbn in SM.
  assert (w1 = w) as ->. { unfold the_mem in EM. destruct (k_frame (w_mach w)); now inversion EM. }
  unfold bind at 1 in H. rewrite (the_file_at w fd f E) in H. unfold bind at 1 in H. unfold ask_int at 1 in H. unfold bind at 1, ask in H.
  destruct (Os (w_log w) (OsLseek (host_fd f) 0 wh)) as [|r| | | | | | |] eqn:ER; try discriminate. unfold ret at 1 in H.
  destruct (Z.ltb_spec (r + off) 0) as [LT|GE].
  - right. inversion H; subst. split; [reflexivity|]. exists f, r. repeat split; try assumption; lia.
  - exfalso. unfold bind in H. destruct (ask_int Os _ _) as [[o|e1] w2]; [|discriminate]. destruct (put_u64 a p o w2) as [[[]|e1] w3]; [|discriminate].
    inversion H. now apply N.
Qed.

(* ---- fd_prestat_get ---- *)
Lemma prestat_call Os w fd f a d p : is_open w fd f -> guest w a d -> Forall scalar (wasm_name f) -> len (utf8 (wasm_name f)) < 2 ^ 32 ->
  0 <= p -> p + 8 <= len d ->
  if fd - 2 <=? p_dirs (w_self w)
  then exists d1 d', overwritten d d1 p [0] /\ overwritten d1 d' (p + 4) (to_le 4 (len (utf8 (wasm_name f)))) /\
       wasi_call Os F_fd_prestat_get [fd; p] w = (Ok [E_SUCCESS], set_guest w a d')
  else wasi_call Os F_fd_prestat_get [fd; p] w = (Ok [E_BADF], w).
Proof.
  intros O G S L P1 P2.
  destruct (fd - 2 <=? p_dirs (w_self w)) eqn:E.
  - assert (fd - 2 >? p_dirs (w_self w) = false) as E' by lia. clear E.
    pose proof (len_nonneg (utf8 (wasm_name f))).
    set (n := len (utf8 (wasm_name f))) in *.
    exists (splice d p [0]), (splice (splice d p [0]) (p + 4) (to_le 4 n)).
    assert (len (splice d p [0]) = len d) as LS by (apply len_splice; change (len [0]) with 1; lia).
    split; [apply splice_over; change (len [0]) with 1; lia|]. split; [apply splice_over; rewrite ?len_to_le, ?LS; lia|].
    cbn [wasi_call]. unfold fd_prestat_get. unfold bind at 1, self. rewrite (badf_open w fd f O), E'. cbn [orb].
    unfold bind at 1. rewrite (the_mem_guest w a d G). unfold bind at 1. rewrite (the_file_at w fd f (proj1 O)).
    unfold bind at 1. rewrite (encode_utf8 _ S). unfold lift. fold n. unfold bind at 1. rewrite (put_u8_at w a d p 0 G) by lia.
    assert (guest (set_guest w a (splice d p [0])) a (splice d p [0])) as G1.
    { eapply guest_set; [exact G|]. apply bytes_splice; [exact (guest_bytes _ _ _ G)|]. repeat constructor; unfold byte; lia. }
    unfold bind. unfold put_u32. rewrite (put_u_at _ a _ 4 (p + 4) n G1) by (change (2 ^ (8 * 4)) with (2 ^ 32); lia). now rewrite set_set.
  - assert (fd - 2 >? p_dirs (w_self w) = true) as E' by lia. clear E.
    cbn [wasi_call]. unfold fd_prestat_get. unfold bind at 1, self. now rewrite (badf_open w fd f O), E'.
Qed.

(* ---- args_get, environ_get and their sizes ---- *)
Lemma strings_call Os f w a d l ptr buf :
  (f = F_args_get /\ l = p_args (w_self w)) \/ (f = F_environ_get /\ l = p_envs (w_self w)) ->
  Forall ascii l -> guest w a d -> len d <= 2 ^ 32 ->
  0 <= ptr -> ptr + 4 * len l <= len d -> 0 <= buf -> buf + len (block l) <= len d ->
  apart ptr (4 * len l) buf (len (block l)) ->
  exists d1 d', overwritten d d1 ptr (words (starts buf l)) /\ overwritten d1 d' buf (block l) /\
  wasi_call Os f [ptr; buf] w = (Ok [E_SUCCESS], set_guest w a d').
Proof.
  intros C A G L1 L2 L3 L4 L5 AP. destruct (args_layout w a d l ptr buf A G L1 L2 L3 L4 L5 AP) as (d1 & d' & D1 & D2 & E). exists d1, d'.
  split; [exact D1|]. split; [exact D2|]. destruct C as [(-> & ->)|(-> & ->)]; cbn [wasi_call]; unfold args_get, environ_get;
  unfold bind at 1; rewrite (the_mem_guest w a d G); unfold bind at 1, self; unfold bind; now rewrite E.
Qed.
Lemma sizes_call Os f w a d l x0 x1 :
  (f = F_args_sizes_get /\ l = p_args (w_self w)) \/ (f = F_environ_sizes_get /\ l = p_envs (w_self w)) ->
  Forall ascii l -> guest w a d -> len l < 2 ^ 32 -> len (block l) < 2 ^ 32 ->
  0 <= x0 -> x0 + 4 <= len d -> 0 <= x1 -> x1 + 4 <= len d ->
  exists d1 d', overwritten d d1 x0 (to_le 4 (len l)) /\ overwritten d1 d' x1 (to_le 4 (len (block l))) /\
  wasi_call Os f [x0; x1] w = (Ok [E_SUCCESS], set_guest w a d').
Proof.
  intros C A G L1 L2 L3 L4 L5 L6. destruct (put_sizes_ok w a d l x0 x1 A G L1 L2 L3 L4 L5 L6) as (d1 & d' & D1 & D2 & E). exists d1, d'.
  split; [exact D1|]. split; [exact D2|]. destruct C as [(-> & ->)|(-> & ->)]; cbn [wasi_call]; unfold args_sizes_get, environ_sizes_get;
  unfold bind at 1, self; exact E.
Qed.

(* ---- path_open: the name given to the operating system has passed the check ---- *)
Lemma path_open_checked Os w r w' x0 x1 x2 x3 x4 x5 x6 x7 x8 :
  wasi_call Os F_path_open [x0; x1; x2; x3; x4; x5; x6; x7; x8] w = (r, w') ->
  w_log w' = w_log w \/
  exists f nm flags evs rep, is_open w x0 f /\ help_escp (host_name f) nm = false /\
    w_log w' = evs ++ (OsOpen nm flags 0x1a4 (Some (host_fd f)), rep) :: w_log w /\
    Forall (fun e => exists h, fst e = OsIsdir h \/ fst e = OsIsfile h \/ fst e = OsStatFd h) evs.
Proof.
  intros H. cbn [wasi_call] in H. unfold path_open, unless_badf in H. unfold bind at 1, self at 1 in H.
  destruct (help_badf (w_self w) x0) eqn:EB; [left; now inversion H|]. apply badf_false in EB. destruct EB as (B0 & f & B1 & B2).
  assert (entry w x0 f) as E by (split; [lia|exact B1]).
  unfold need, help_perm in H. unfold bind at 1 2 in H. rewrite (the_file_at w x0 f E) in H. unfold ret at 1 in H.
  destruct (Z.land (rights_base f) R_PATH_OPEN =? 0); [left; now inversion H|].
  unfold bind at 1 in H. destruct (the_mem w) as [[a|e1] w1] eqn:EM.
  2:{ left. assert (w1 = w) as -> by (unfold the_mem in EM; destruct (k_frame (w_mach w)); now inversion EM). now inversion H. }
  assert (w1 = w) as -> by (unfold the_mem in EM; destruct (k_frame (w_mach w)); now inversion EM).
  unfold bind at 1 in H. rewrite (the_file_at w x0 f E) in H. unfold bind at 1 in H.
  destruct (get_str a x2 x3 w) as [[nm|e] w1] eqn:EN; unfold get_str, bind, get_bytes, read_mem, lift in EN.
  2:{ left. assert (w1 = w) as -> by (destruct (let? x := _ in _); now inversion EN). now inversion H. }
  assert (w1 = w) as -> by (destruct (let? x := _ in _); now inversion EN).
  destruct (existsb (Z.eqb 0) nm); [left; now inversion H|]. unfold unless_escp in H. destruct (help_escp (host_name f) nm) eqn:ES; [left; now inversion H|].
  destruct (has x4 8 && _); [left; now inversion H|]. right. unfold bind at 1, self at 1 in H. unfold ask_try, ask in H. unfold bind at 1 in H.
  set (c1 := OsOpen _ _ _ _) in H. exists f, nm, (open_flags x1 x4 x5 x7).
  assert (exists evs rep, w_log w' = evs ++ (c1, rep) :: w_log w /\ Forall (fun e => exists h, fst e = OsIsdir h \/ fst e = OsIsfile h \/ fst e = OsStatFd h) evs) as K.
  2:{ destruct K as (evs & rep & K1 & K2). exists evs, rep. repeat split; try assumption. lia. }
  destruct (Os (w_log w) c1) as [|h| | | | | | |e] eqn:EO; try (unfold fail in H; injection H as <- <-; exists [], (Os (w_log w) c1); rewrite EO; now split).
  2:{ exists [], (RFail e). destruct (match e with OEexist => _ | _ => _ end) as [n|]; unfold ret, os_raise, fail in H; injection H as <- <-; now split. }
  unfold ask_bool, ask in H. unfold bind at 1 2 in H. cbn [w_log] in H.
  match type of H with context [match ?r with RUnit => _ | RInt _ => _ | RBool b => _ | _ => _ end] => set (rd := r) in H end.
  assert (forall w0, (match rd with RBool b => ret b | _ => ret false end : W bool) w0 = (Ok (match rd with RBool b => b | _ => false end), w0)) as ED by (intros; now destruct rd).
  rewrite ED in H. clear ED. set (isdir := match rd with RBool b => b | _ => false end) in H. clearbody isdir.
  destruct (if isdir then (Z.land x5 (Z.lnot R_FD_SEEK), Z.land x6 (Z.lnot R_FD_SEEK)) else (x5, x6)) as (b1, q1).
  unfold bind at 1 2 in H. cbn [w_log w_self w_pipes w_mach] in H.
  match type of H with context [match ?r with RUnit => _ | RInt _ => _ | RBool b => _ | _ => _ end] => set (rf := r) in H end.
  assert (forall w0, (match rf with RBool b => ret b | _ => ret false end : W bool) w0 = (Ok (match rf with RBool b => b | _ => false end), w0)) as ED by (intros; now destruct rf).
  rewrite ED in H. clear ED. set (isfile := match rf with RBool b => b | _ => false end) in H. clearbody isfile.
  destruct (if isfile then (Z.land b1 (Z.lnot path_rights), Z.land q1 (Z.lnot path_rights)) else (b1, q1)) as (b2, q2).
  unfold bind at 1 in H. unfold ask_stat, ask in H. unfold bind at 1 in H. cbn [w_log w_self w_pipes w_mach] in H.
  match type of H with context [Os ?l (OsStatFd h)] => set (log := l) in H; set (rs := Os log (OsStatFd h)) in H end.
  exists [(OsStatFd h, rs); (OsIsfile h, rf); (OsIsdir h, rd)], (RInt h). split; [|repeat (constructor; [exists h; cbn; tauto|]); constructor].
  assert (w_log w' = (OsStatFd h, rs) :: log) as ->; [|reflexivity].
  destruct rs as [| | | | | |i| |e]; try (unfold fail, os_raise in H; now inversion H).
  unfold ret at 1 in H. unfold bind at 1, self at 1 in H. unfold bind at 1 in H. unfold set_fd, bind, self, set_self in H. cbn [w_log w_self w_pipes w_mach p_args p_dirs p_envs p_fd p_return_on_exit] in H.
  match type of H with context [put_u32 _ _ ?v ?x] => set (w2 := x) in H; pose proof (still_write a (fun y => mem_put_u 4 y x8 v) w2) as SW end.
  fold (put_u32 a x8 (len (p_fd (w_self w)))) in SW. destruct (put_u32 a x8 _ w2) as [[u|e] w3]; cbn [snd] in SW; unfold ret in H; injection H as <- <-; apply SW.
Qed.
