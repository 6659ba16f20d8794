(* Whatever the reader accepts is in the relaxed format of SpecLax.v. *)
From Coq Require Import ZArith List Bool Lia Sorted.
From Verif Require Import Py Leb128 Val Opcode Numeric Syntax Store Utf8 Decode SpecLeb SpecMem SpecRun SpecFormat SpecLax PyFacts
  LebFacts ValFacts DecodeFacts TreeFacts LocalFacts.
Import ListNotations.
Open Scope Z_scope.

(* what a reader takes from the input when it succeeds, and what it makes of it *)
Definition takes {A} (P : A -> list Z -> Prop) (p : R A) : Prop :=
  forall r a r', bytes r -> p r = (Ok a, r') -> exists b, r = b ++ r' /\ P a b.

Lemma takes_ret {A} (Q : A -> list Z -> Prop) a : Q a [] -> takes Q (ret a).
Proof. intros H r x r' _ E. injection E as <- <-. exists []. auto. Qed.
Lemma takes_fail {A} (Q : A -> list Z -> Prop) e : takes Q (fail e).
Proof. intros r x r' _ E. discriminate. Qed.
Lemma takes_lift {A} (Q : A -> list Z -> Prop) x : (forall a, x = Ok a -> Q a []) -> takes Q (lift x).
Proof. intros H r a r' _ E. unfold lift in E. injection E as -> <-. exists []. auto. Qed.
Lemma takes_bind {A B} (P : A -> list Z -> Prop) (Q : B -> list Z -> Prop) p (f : A -> R B) : takes P p ->
  (forall a x, P a x -> takes (fun c y => Q c (x ++ y)) (f a)) -> takes Q (bind p f).
Proof.
  intros Hp Hf r c r' Hr E. unfold bind in E. destruct (p r) as [[a|e] r1] eqn:Ep; [|discriminate].
  destruct (Hp _ _ _ Hr Ep) as (x & -> & Hx). apply Forall_app in Hr as [_ Hr].
  destruct (Hf a x Hx _ _ _ Hr E) as (y & -> & Hy). exists (x ++ y). split; [now rewrite app_assoc|exact Hy].
Qed.
Lemma takes_weaken {A} (P Q : A -> list Z -> Prop) p : takes P p -> (forall a x, P a x -> Q a x) -> takes Q p.
Proof. intros H HQ r a r' Hr E. destruct (H _ _ _ Hr E) as (b & -> & Hb). eauto. Qed.
Lemma takes_assert b : takes (fun _ x => b = true /\ x = []) (assert b).
Proof. intros r a r' _ E. destruct b; [|discriminate]. injection E as _ <-. exists []. auto. Qed.
Lemma takes_ord : takes (fun z x => byte z /\ x = [z]) rd_ord.
Proof. intros [|b r] a r' Hr E; [discriminate|]. injection E as <- <-. inversion Hr; subst. exists [b]. auto. Qed.
Lemma takes_u : takes number rd_u.
Proof.
  intros r a r' Hr E. unfold rd_u in E. destruct (u_reader_total r Hr) as [(b & rest & -> & Hg & Hu)|(_ & e & Hu)]; rewrite Hu in E.
  - injection E as <- <-. exists b. split; [reflexivity|]. split; auto.
  - discriminate.
Qed.
Lemma takes_i : takes integer rd_i.
Proof.
  intros r a r' Hr E. unfold rd_i in E. destruct (i_reader_total r Hr) as [(b & rest & -> & Hg & Hu)|(_ & e & Hu)]; rewrite Hu in E.
  - injection E as <- <-. exists b. split; [reflexivity|]. split; auto.
  - discriminate.
Qed.
Lemma number_nonneg n b : number n b -> 0 <= n.
Proof. intros [_ <-]. pose proof (base128_bound b). lia. Qed.
Lemma firstn_bytes k r : bytes r -> bytes (firstn k r).
Proof. intros H. rewrite <- (firstn_skipn k r) in H. now apply Forall_app in H as [H _]. Qed.
Lemma takes_bytes n : 0 <= n -> takes (fun d x => x = d /\ bytes d /\ len d <= n) (rd_bytes n).
Proof.
  intros Hn r a r' Hr E. unfold rd_bytes in E. destruct (n >=? 2 ^ 63); [discriminate|]. injection E as <- <-.
  exists (firstn (Z.to_nat (Z.min n (len r))) r). split; [now rewrite firstn_skipn|]. split; [reflexivity|].
  split; [now apply firstn_bytes|]. unfold len. pose proof (firstn_le_length (Z.to_nat (Z.min n (len r))) r). rewrite firstn_length. lia.
Qed.
(* at the end of the input a read may be short; elsewhere it is not *)
Lemma bytes_full n r d r' : 0 <= n -> bytes r -> rd_bytes n r = (Ok d, r') -> r = d ++ r' /\ bytes d /\ len d <= n /\ (r' <> [] -> len d = n).
Proof.
  intros Hn Hr E. unfold rd_bytes in E. destruct (n >=? 2 ^ 63); [discriminate|]. injection E as <- <-.
  split; [now rewrite firstn_skipn|]. split; [now apply firstn_bytes|]. unfold len. rewrite firstn_length.
  split; [lia|]. intros H. destruct (Z.le_gt_cases n (Z.of_nat (length r))); [lia|].
  exfalso. apply H. apply skipn_all2. lia.
Qed.
Lemma takes_times {A} (P : A -> list Z -> Prop) p f : takes P p -> forall n, 0 <= n ->
  takes (fun l b => len l = n /\ exists bs, Forall2 P l bs /\ b = concat bs) (times f n p).
Proof.
  intros Hp. induction f as [|f IH]; intros n Hn; [apply takes_fail|]. cbn [times]. destruct (n <=? 0) eqn:E.
  - apply takes_ret. split; [unfold len; cbn; lia|]. exists []. split; [constructor|reflexivity].
  - eapply takes_bind; [exact Hp|]. intros a x Hx. eapply takes_bind; [apply (IH (n - 1)); lia|].
    intros l y (L & bs & HF & ->). apply takes_ret. split; [rewrite len_cons; lia|]. exists (x :: bs). split; [now constructor|].
    cbn [concat]. now rewrite app_nil_r.
Qed.
Lemma takes_rd_times {A} (P : A -> list Z -> Prop) p n : takes P p -> 0 <= n ->
  takes (fun l b => len l = n /\ exists bs, Forall2 P l bs /\ b = concat bs) (rd_times n p).
Proof. intros Hp Hn r. exact (takes_times P p _ Hp n Hn r). Qed.
Lemma takes_vec {A} (P : A -> list Z -> Prop) p : takes P p -> takes (items P) (rd_vec p).
Proof.
  intros Hp. eapply takes_bind; [apply takes_u|]. intros n x Hx.
  eapply takes_weaken; [apply takes_rd_times; [exact Hp|now apply number_nonneg in Hx]|].
  intros l y (<- & bs & HF & ->). exists x, bs. auto.
Qed.

(* ---- names ---- *)
Lemma utf8_sound_aux n : forall b, (length b <= n)%nat -> bytes b -> forall s, utf8_decode b = Ok s -> Forall scalar s /\ b = utf8 s.
Proof.
  induction n as [|n IH]; intros b L Hb s E.
  - destruct b; [|cbn in L; lia]. injection E as <-. split; [constructor|reflexivity].
  - destruct b as [|b0 r]; [injection E as <-; split; [constructor|reflexivity]|].
    inversion Hb as [|? ? B0 Hr]; subst. cbn [utf8_decode] in E. unfold cont, in_range, byte in *.
    assert (forall c r1 s1, (let? s := utf8_decode r1 in Ok (c :: s)) = Ok s1 ->
      (length r1 <= n)%nat -> bytes r1 -> scalar c -> Forall scalar s1 /\ exists s2, s1 = c :: s2 /\ r1 = utf8 s2) as K.
    { intros c r1 s1 E1 L1 Hr1 Hc. destruct (utf8_decode r1) as [s2|] eqn:E2; [|discriminate]. injection E1 as <-.
      destruct (IH _ L1 Hr1 _ E2) as [F ->]. split; [now constructor|]. eauto. }
    cbn [length] in L.
    destruct (b0 <? 0x80) eqn:C0.
    { destruct (K _ _ _ E) as (F & s2 & -> & ->); [lia|exact Hr|left; lia|]. split; [exact F|].
      change (utf8 (b0 :: s2)) with (utf8_char b0 ++ utf8 s2). unfold utf8_char. rewrite C0. reflexivity. }
    destruct ((0xc2 <=? b0) && (b0 <=? 0xdf)) eqn:C1.
    { destruct r as [|b1 r]; [discriminate|]. destruct ((0x80 <=? b1) && (b1 <=? 0xbf)) eqn:D1; [|discriminate].
      inversion Hr as [|? ? B1 Hr2]; subst. cbn [length] in L.
      destruct (K _ _ _ E) as (F & s2 & -> & ->); [lia|exact Hr2|left; lia|]. split; [exact F|].
      remember ((b0 - 0xc0) * 64 + (b1 - 0x80)) as c eqn:Ec. change (utf8 (c :: s2)) with (utf8_char c ++ utf8 s2). unfold utf8_char.
      destruct (Z.ltb_spec c 0x80); [lia|]. destruct (Z.ltb_spec c 0x800); [|lia]. cbn [app]. repeat f_equal; lia. }
    destruct ((0xe0 <=? b0) && (b0 <=? 0xef)) eqn:C2.
    { destruct r as [|b1 [|b2 r]]; try discriminate. destruct (_ && _) eqn:D1 in E; [|discriminate]. apply andb_prop in D1 as [D1 D2].
      inversion Hr as [|? ? B1 Hr1]; subst. inversion Hr1 as [|? ? B2 Hr2]; subst. cbn [length] in L.
      destruct (K _ _ _ E) as (F & s2 & -> & ->); [lia|exact Hr2| |].
      { unfold scalar. destruct (b0 =? 0xe0) eqn:?; [lia|]. destruct (b0 =? 0xed) eqn:?; lia. }
      split; [exact F|]. remember ((b0 - 0xe0) * 4096 + (b1 - 0x80) * 64 + (b2 - 0x80)) as c eqn:Ec.
      assert (0x800 <= c < 0x10000) as Hc by (destruct (b0 =? 0xe0) eqn:?; [lia|]; destruct (b0 =? 0xed) eqn:?; lia).
      assert (0x80 <= b1 <= 0xbf) as H1 by (destruct (b0 =? 0xe0) eqn:?; [lia|]; destruct (b0 =? 0xed) eqn:?; lia).
      change (utf8 (c :: s2)) with (utf8_char c ++ utf8 s2). unfold utf8_char.
      destruct (Z.ltb_spec c 0x80); [lia|]. destruct (Z.ltb_spec c 0x800); [lia|]. destruct (Z.ltb_spec c 0x10000); [|lia].
      cbn [app]. clear D1 E K IH F. repeat f_equal; lia. }
    destruct ((0xf0 <=? b0) && (b0 <=? 0xf4)) eqn:C3; [|discriminate].
    destruct r as [|b1 [|b2 [|b3 r]]]; try discriminate. destruct (_ && _) eqn:D1 in E; [|discriminate].
    apply andb_prop in D1 as [D1 D3]. apply andb_prop in D1 as [D1 D2].
    inversion Hr as [|? ? B1 Hr1]; subst. inversion Hr1 as [|? ? B2 Hr2]; subst. inversion Hr2 as [|? ? B3 Hr3]; subst. cbn [length] in L.
    remember ((b0 - 0xf0) * 262144 + (b1 - 0x80) * 4096 + (b2 - 0x80) * 64 + (b3 - 0x80)) as c eqn:Ec.
    assert (0x10000 <= c < 0x110000) as Hc by (destruct (b0 =? 0xf0) eqn:?; [lia|]; destruct (b0 =? 0xf4) eqn:?; lia).
    assert (0x80 <= b1 <= 0xbf) as H1 by (destruct (b0 =? 0xf0) eqn:?; [lia|]; destruct (b0 =? 0xf4) eqn:?; lia).
    destruct (K _ _ _ E) as (F & s2 & -> & ->); [lia|exact Hr3|right; lia|].
    split; [exact F|]. change (utf8 (c :: s2)) with (utf8_char c ++ utf8 s2). unfold utf8_char.
    destruct (Z.ltb_spec c 0x80); [lia|]. destruct (Z.ltb_spec c 0x800); [lia|]. destruct (Z.ltb_spec c 0x10000); [lia|].
    cbn [app]. clear D1 E K IH F. repeat f_equal; lia.
Qed.
Lemma utf8_sound b s : bytes b -> utf8_decode b = Ok s -> Forall scalar s /\ b = utf8 s.
Proof. intros Hb. exact (utf8_sound_aux _ b (le_n _) Hb s). Qed.
(* a name that is followed by something is whole *)
Lemma takes_name {B} (Q : B -> list Z -> Prop) (f : name -> R B) : (forall nm b r', f nm [] <> (Ok b, r')) ->
  (forall nm x, lax_name nm x -> takes (fun c y => Q c (x ++ y)) (f nm)) ->
  takes Q (let! n := rd_u in let! nm := rd_name n in f nm).
Proof.
  intros Hf HQ. eapply takes_bind; [apply takes_u|]. intros n x Hx r c r' Hr E. unfold rd_name, bind in E.
  destruct (rd_bytes n r) as [[d|e] r1] eqn:Ed; [|discriminate]. unfold lift in E.
  destruct (utf8_decode d) as [nm|] eqn:En; [|discriminate].
  destruct (bytes_full _ _ _ _ (number_nonneg _ _ Hx) Hr Ed) as (-> & Hd & _ & HL).
  destruct (utf8_sound _ _ Hd En) as [Hs ->]. apply Forall_app in Hr as [_ Hr].
  assert (r1 <> []) as N by (intros ->; exact (Hf _ _ _ E)). specialize (HL N).
  assert (lax_name nm (x ++ utf8 nm)) as HN by (split; [exact Hs|]; exists x; rewrite HL; auto).
  destruct (HQ nm _ HN _ _ _ Hr E) as (y & -> & Hy). exists (utf8 nm ++ y). split; [now rewrite app_assoc|].
  now rewrite <- app_assoc in Hy.
Qed.

(* ---- types ---- *)
Lemma vt_of_code_sound z t : vt_of_code z = Ok t -> enc_valtype t [z].
Proof.
  unfold vt_of_code, enc_valtype. intros E.
  repeat match type of E with (if ?a =? ?b then _ else _) = _ => destruct (Z.eqb_spec a b); [injection E as <-; subst; reflexivity|] end.
  discriminate.
Qed.
Lemma takes_valtype : takes enc_valtype rd_valtype.
Proof. eapply takes_bind; [apply takes_ord|]. intros b x [_ ->]. apply takes_lift. intros t E. exact (vt_of_code_sound _ _ E). Qed.
Lemma takes_bype : takes lax_bype rd_bype.
Proof.
  intros r a r' Hr E. destruct r as [|n r]; [discriminate|]. unfold rd_bype in E. destruct (Z.eqb_spec n 0x40) as [->|N].
  - injection E as <- <-. exists [0x40]. split; [reflexivity|constructor].
  - destruct (vt_of_code n) as [t|] eqn:Et.
    + injection E as <- <-. exists [n]. split; [reflexivity|]. constructor. now apply vt_of_code_sound.
    + unfold bind in E. destruct (rd_i (n :: r)) as [[i|e2] r1] eqn:Ei; [|discriminate]. injection E as <- <-.
      destruct (takes_i _ _ _ Hr Ei) as (b & -> & Hb). exists b. split; [reflexivity|now constructor].
Qed.
Lemma takes_functype : takes lax_functype rd_functype.
Proof.
  eapply takes_bind; [apply takes_ord|]. intros b x [_ ->]. eapply takes_bind; [apply takes_assert|]. intros _ x [E ->].
  eapply takes_bind; [apply takes_vec, takes_valtype|]. intros args y Hy. eapply takes_bind; [apply takes_vec, takes_valtype|].
  intros rets z Hz. apply takes_ret. apply Z.eqb_eq in E. subst b. exists y, z. rewrite app_nil_r. auto.
Qed.
Lemma takes_limits : takes lax_limits rd_limits.
Proof.
  eapply takes_bind; [apply takes_ord|]. intros k x [Hk ->]. eapply takes_bind; [apply takes_u|]. intros n x Hx.
  destruct (Z.eqb_spec k 0) as [->|N]; cbn [negb].
  - eapply takes_bind; [apply takes_ret with (Q := fun m y => m = 0 /\ y = []); auto|]. intros m y [-> ->]. apply takes_ret.
    rewrite !app_nil_r. exact (ll_min n x Hx).
  - eapply takes_bind; [apply takes_u|]. intros m y Hy. apply takes_ret. rewrite app_nil_r. exact (ll_max k n m x y Hk N Hx Hy).
Qed.
Lemma takes_tabletype : takes lax_tabletype rd_tabletype.
Proof.
  eapply takes_bind; [apply takes_valtype|]. intros t x Hx. eapply takes_bind; [apply takes_limits|]. intros l y Hy.
  apply takes_lift. intros a E. unfold mk_tabletype in E. destruct (is_ref t) eqn:Er; [|discriminate]. injection E as <-.
  exists x, y. rewrite app_nil_r. split; [|auto]. split; [|exact Hx]. destruct t; try discriminate Er; auto.
Qed.
Lemma takes_globaltype : takes enc_globaltype rd_globaltype.
Proof.
  eapply takes_bind; [apply takes_valtype|]. intros t x Hx. eapply takes_bind; [apply takes_ord|]. intros m y [_ ->].
  apply takes_lift. intros a E. unfold mk_globaltype in E. destruct (_ || _) eqn:Er in E; [|discriminate]. injection E as <-.
  exists x. cbn [gt_type gt_mut]. split; [exact Hx|]. split; [lia|]. now rewrite app_nil_r.
Qed.

(* ---- opcodes ---- *)
(* the bytes of a number, most significant first *)
Fixpoint digits (f : nat) (n : Z) (acc : list Z) : list Z :=
  match f with O => acc | S f' => if n =? 0 then acc else digits f' (n / 256) (n mod 256 :: acc) end.
Lemma be_of_snoc b x : be_of (b ++ [x]) = be_of b * 256 + x.
Proof. unfold be_of. now rewrite fold_left_app. Qed.
Lemma be_of_pos h b : 0 < h -> bytes b -> 0 < be_of (h :: b).
Proof.
  intros Hh. induction b as [|x b IH] using rev_ind; intros Hb; [cbn; lia|].
  apply Forall_app in Hb as [Hb Hx]. inversion Hx as [|? ? Hx0 _]; subst. change (h :: b ++ [x]) with ((h :: b) ++ [x]).
  rewrite be_of_snoc. specialize (IH Hb). unfold byte in Hx0. lia.
Qed.
Lemma digits_be h b : 0 < h < 256 -> bytes b -> forall f acc, (length b < f)%nat -> digits f (be_of (h :: b)) acc = h :: b ++ acc.
Proof.
  intros Hh. induction b as [|x b IH] using rev_ind; intros Hb f acc L.
  - destruct f as [|f]; [lia|]. cbn [be_of fold_left digits]. change (0 * 256 + h) with h. destruct (Z.eqb_spec h 0); [lia|].
    rewrite Z.div_small, Z.mod_small by lia. destruct f; reflexivity.
  - apply Forall_app in Hb as [Hb Hx]. inversion Hx as [|? ? Hx0 _]; subst. rewrite app_length in L. cbn [length] in L.
    destruct f as [|f]; [lia|]. pose proof (be_of_pos h b ltac:(lia) Hb). unfold byte in Hx0.
    change (h :: b ++ [x]) with ((h :: b) ++ [x]). rewrite be_of_snoc. cbn [digits].
    destruct (Z.eqb_spec (be_of (h :: b) * 256 + x) 0); [lia|].
    replace ((be_of (h :: b) * 256 + x) / 256) with (be_of (h :: b)) by lia.
    replace ((be_of (h :: b) * 256 + x) mod 256) with x by lia.
    rewrite IH by (try exact Hb; lia). now rewrite <- app_assoc.
Qed.
Lemma be_of_lower h b : 0 < h -> bytes b -> 256 ^ len b <= be_of (h :: b).
Proof.
  intros Hh. induction b as [|x b IH] using rev_ind; intros Hb; [cbn; lia|].
  apply Forall_app in Hb as [Hb Hx]. inversion Hx as [|? ? Hx0 _]; subst. change (h :: b ++ [x]) with ((h :: b) ++ [x]).
  rewrite be_of_snoc. specialize (IH Hb). unfold byte in Hx0. unfold len in *. rewrite app_length, Nat2Z.inj_add, Z.pow_add_r by lia.
  cbn [length]. change (256 ^ Z.of_nat 1) with 256. lia.
Qed.
Definition listed (o : opc) (n : Z) (l : list (opc * Z)) : bool := existsb (fun x => (opc_code (fst x) =? opc_code o) && (snd x =? n)) l.
Lemma listed_in o n l : listed o n l = true -> In (o, n) l.
Proof.
  unfold listed. intros H. apply existsb_exists in H as ([o' n'] & Hin & H). cbn [fst snd] in H.
  apply andb_prop in H as [H1 H2]. apply Z.eqb_eq, opc_code_inj in H1. apply Z.eqb_eq in H2. now subst.
Qed.
Definition opc_sound (o : opc) : bool :=
  (opc_code o <? 256 ^ 4) &&
  match digits 5 (opc_code o) [] with
  | [] => (opc_code o =? 0) && listed o 0 one_byte
  | [n] => (n =? opc_code o) && listed o n one_byte
  | h :: e => (h =? 0xfc) && listed o (base128 e) after_fc || (h =? 0xfd) && listed o (base128 e) after_fd
  end.
Lemma all_opc_sound o : In o all_opcs -> opc_sound o = true.
Proof.
  assert (forallb opc_sound all_opcs = true) as H by (vm_compute; reflexivity).
  rewrite forallb_forall in H. apply H.
Qed.
Lemma takes_opc : takes lax_opc rd_opc.
Proof.
  eapply takes_bind; [apply takes_ord|]. intros b x [Hb ->]. unfold byte in Hb.
  destruct (b >=? 0xfc) eqn:Eb.
  - eapply takes_bind with (P := fun c x => exists k e, u_encode k = Ok e /\ number k x /\ c = be_of (b :: e)).
    + eapply takes_bind; [apply takes_u|]. intros k x Hk.
      eapply takes_bind with (P := fun e y => u_encode k = Ok e /\ y = []); [apply takes_lift; auto|].
      intros e y [He ->]. apply takes_ret. exists k, e. now rewrite app_nil_r.
    + intros c x (k & e & He & Hk & ->). destruct (opc_of_code (be_of (b :: e))) as [o|] eqn:Eo; [|apply takes_fail].
      apply takes_ret. rewrite app_nil_r. unfold opc_of_code in Eo. apply find_some in Eo as [Hin Eo]. apply Z.eqb_eq in Eo.
      apply all_opc_sound in Hin. unfold opc_sound in Hin. apply andb_prop in Hin as [H1 H2].
      destruct (u_encode_spec k (number_nonneg _ _ Hk)) as (e' & He' & Hg & Hv & _). rewrite He in He'. injection He' as <-.
      pose proof (group_bytes _ Hg) as Be. rewrite Eo in H1, H2.
      assert (length e < 4)%nat as L.
      { pose proof (be_of_lower b e ltac:(lia) Be) as HB. destruct (Nat.lt_ge_cases (length e) 4) as [|G]; [assumption|].
        pose proof (Z.pow_le_mono_r 256 4 (len e) ltac:(lia) ltac:(unfold len; lia)). lia. }
      rewrite digits_be in H2 by (try exact Be; lia). rewrite app_nil_r in H2.
      destruct e as [|e0 e]; [now apply group_nonnil in Hg|]. rewrite Hv in H2.
      apply orb_prop in H2 as [H2|H2]; apply andb_prop in H2 as [H2 H3]; apply Z.eqb_eq in H2; subst b; apply listed_in in H3.
      * cbn [app]. eapply lo_fc; eassumption.
      * cbn [app]. eapply lo_fd; eassumption.
  - eapply takes_bind; [apply takes_ret with (Q := fun c x => c = b /\ x = []); auto|]. intros c x [-> ->].
    destruct (opc_of_code b) as [o|] eqn:Eo; [|apply takes_fail]. apply takes_ret.
    unfold opc_of_code in Eo. apply find_some in Eo as [Hin Eo]. apply Z.eqb_eq in Eo.
    apply all_opc_sound in Hin. unfold opc_sound in Hin. apply andb_prop in Hin as [H1 H2]. rewrite Eo in H2.
    cbn [app]. destruct (Z.eqb_spec b 0) as [->|N].
    + change (digits 5 0 []) with (@nil Z) in H2. cbn match in H2. apply andb_prop in H2 as [_ H2]. apply listed_in in H2. now constructor.
    + replace (digits 5 b []) with (digits 5 (be_of [b]) []) in H2 by reflexivity. rewrite digits_be in H2; [|lia|constructor|cbn; lia]. cbn [app] in H2.
      apply andb_prop in H2 as [_ H2]. apply listed_in in H2. now constructor.
Qed.

(* ---- immediates ---- *)
Lemma takes_forl k l : takes (fun _ x => Forall (fun e => e < k) l /\ x = []) (forl (fun e => assert (e <? k)) l).
Proof.
  induction l as [|e l IH]; cbn [forl]; [apply takes_ret; auto|]. eapply takes_bind; [apply takes_assert|]. intros _ x [E ->].
  eapply takes_weaken; [exact IH|]. intros _ x [F ->]. split; [constructor; [lia|exact F]|reflexivity].
Qed.
Lemma unpack_sound n b z : 1 <= n -> bytes b -> unpack_s n b = Ok z -> bits_of n z b.
Proof.
  intros Hn Hb E. unfold unpack_s in E. destruct (Z.eqb_spec (len b) n) as [L|]; [|discriminate]. apply Ok_inj in E. subst z.
  split; [exact Hb|]. split; [exact L|]. unfold le_of_s. destruct b as [|x b]; [unfold len in L; cbn in L; lia|]. rewrite L.
  pose proof (le_of_bound (x :: b) Hb) as B. rewrite L in B. unfold signed_of.
  assert (2 ^ (8 * n) = 2 * 2 ^ (8 * n - 1)) as P by (rewrite <- Z.pow_succ_r by lia; f_equal; lia).
  destruct (_ <? _) eqn:E; split; try lia.
  - apply Z.mod_small; lia.
  - rewrite <- (Z_mod_plus_full _ 1). rewrite Z.mod_small; lia.
Qed.
Lemma takes_result {A} (x : res A) : takes (fun z y => x = Ok z /\ y = []) (lift x).
Proof. apply takes_lift. auto. Qed.
Lemma mem_bound k a : 1 <= k -> (a <? k) = true -> 2 ^ a <= 2 ^ (k - 1).
Proof. intros Hk H. apply Z.pow_le_mono_r; lia. Qed.
Ltac zeros := repeat match goal with H : (_ =? _) = true |- _ => apply Z.eqb_eq in H; subst end.
(* a constant vector may be cut short by the end of the input; everything else is whole *)
Lemma takes_args o : o <> O_v128_const -> o <> O_block -> o <> O_loop -> o <> O_if_then -> o <> O_else_fi -> o <> O_end ->
  takes (fun a x => exists s, shape_of o = Some s /\ lax_args o s a x) (rd_args o).
Proof.
  intros N1 N2 N3 N4 N5 N6. destruct o; try (exfalso; congruence); clear N1 N2 N3 N4 N5 N6; cbn [rd_args];
  repeat first
    [ eapply takes_bind; [apply takes_u|intros ? ? ?]
    | eapply takes_bind; [apply takes_assert|intros ? ? [? ->]]
    | eapply takes_bind; [apply takes_ord|intros ? ? [? ->]]
    | eapply takes_bind; [apply takes_i|intros ? ? ?]
    | eapply takes_bind; [apply takes_bytes; lia|intros ? ? (-> & ? & ?)]
    | eapply takes_bind; [apply takes_vec, takes_u|intros ? ? ?]
    | eapply takes_bind; [apply takes_rd_times; [apply takes_u|lia]|intros ? ? (? & ? & ? & ->)]
    | eapply takes_bind; [apply takes_forl|intros ? ? [? ->]]
    | eapply takes_bind; [apply takes_result|intros ? ? [? ->]] ];
  apply takes_ret; rewrite ?app_nil_r; cbn [app]; eexists; (split; [reflexivity|]).
  all: first
    [ solve [constructor; try assumption; lia]
    | solve [constructor; [assumption|assumption|match goal with H : (?a <? ?k) = true |- 2 ^ ?a <= _ \/ _ => left; exact (mem_bound k a ltac:(lia) H) end]]
    | solve [constructor; [assumption|assumption|tauto]]
    | solve [constructor; apply unpack_sound; [lia|assumption|assumption]]
    | solve [zeros; constructor; assumption]
    | solve [zeros; apply (la_zero _ _)] ].
Qed.

(* ---- instructions ---- *)
Lemma lax_opc_nonnil o b : lax_opc o b -> b <> [].
Proof. intros []; discriminate. Qed.
Lemma lax_inst_plain i b : lax_inst i b -> inst_is O_end i = false /\ inst_is O_else_fi i = false /\ b <> [].
Proof.
  intros H. destruct H as [o s args x y Hs Ho Ha| | |]; try (repeat split; discriminate).
  assert (forall c, shape_of c = None -> inst_is c (IOp o args) = false) as K.
  { intros c Hc. unfold inst_is. destruct (Z.eqb_spec (opc_code o) (opc_code c)) as [E|]; [|reflexivity].
    apply opc_code_inj in E. congruence. }
  split; [now apply K|]. split; [now apply K|]. apply lax_opc_nonnil in Ho. destruct x; [congruence|discriminate].
Qed.
Definition inst_takes (p : R inst) : Prop := forall r i r', bytes r -> p r = (Ok i, r') -> exists b, r = b ++ r' /\
  (i = IOp O_end [] /\ b = [0x0b] \/ i = IOp O_else_fi [] /\ b = [0x05] \/ lax_inst i b \/
   r' = [] /\ exists x, i = IOp O_v128_const [ABytes x]).
Lemma until_takes p : inst_takes p -> forall f, takes (fun l b => lax_seq l b /\ b <> []) (until f p).
Proof.
  intros Hp. induction f as [|f IH]; [apply takes_fail|]. intros r l r' Hr E. cbn [until] in E. unfold bind in E.
  destruct (p r) as [[i|e] r1] eqn:Ep; [|discriminate]. destruct (Hp _ _ _ Hr Ep) as (b & -> & Hb).
  apply Forall_app in Hr as [_ Hr].
  destruct (inst_is O_end i) eqn:Ei.
  - injection E as <- <-. exists b. split; [reflexivity|]. destruct Hb as [[-> ->]|[[-> ->]|[Hb|[-> [x ->]]]]].
    + split; [constructor|discriminate].
    + discriminate Ei.
    + apply lax_inst_plain in Hb as (H & _). congruence.
    + discriminate Ei.
  - destruct (until f p r1) as [[k|e] r2] eqn:Eu; [|discriminate]. injection E as <- <-.
    destruct (IH _ _ _ Hr Eu) as (c & -> & Hc & Nc). exists (b ++ c). split; [now rewrite app_assoc|].
    split; [|destruct b; [exact Nc|discriminate]]. destruct Hb as [[-> ->]|[[-> ->]|[Hb|[H _]]]].
    + discriminate Ei.
    + now constructor.
    + now constructor.
    + destruct c; [congruence|discriminate].
Qed.
Lemma until_if_takes p : inst_takes p -> forall f second, takes (fun lk b => lax_if second (fst lk) (snd lk) b /\ b <> []) (until_if f p second).
Proof.
  intros Hp. induction f as [|f IH]; intros second; [apply takes_fail|]. intros r l r' Hr E. cbn [until_if] in E. unfold bind in E.
  destruct (p r) as [[i|e] r1] eqn:Ep; [|discriminate]. destruct (Hp _ _ _ Hr Ep) as (b & -> & Hb).
  apply Forall_app in Hr as [_ Hr].
  destruct (inst_is O_end i) eqn:Ei.
  - injection E as <- <-. exists b. split; [reflexivity|]. destruct Hb as [[-> ->]|[[-> ->]|[Hb|[-> [x ->]]]]].
    + split; [constructor|discriminate].
    + discriminate Ei.
    + apply lax_inst_plain in Hb as (H & _). congruence.
    + discriminate Ei.
  - destruct (inst_is O_else_fi i) eqn:Ee.
    + destruct (IH _ _ _ _ Hr E) as (c & -> & Hc & Nc). exists (b ++ c). split; [now rewrite app_assoc|].
      split; [|destruct b; [exact Nc|discriminate]]. destruct Hb as [[-> ->]|[[-> ->]|[Hb|[_ [x ->]]]]].
      * discriminate Ei.
      * now constructor.
      * apply lax_inst_plain in Hb as (_ & H & _). congruence.
      * discriminate Ee.
    + destruct (until_if f p second r1) as [[[l1 k1]|e] r2] eqn:Eu; [|discriminate]. injection E as <- <-.
      destruct (IH _ _ _ _ Hr Eu) as (c & -> & Hc & Nc). exists (b ++ c). split; [now rewrite app_assoc|].
      split; [|destruct b; [exact Nc|discriminate]]. destruct Hb as [[-> ->]|[[-> ->]|[Hb|[H _]]]].
      * discriminate Ei.
      * discriminate Ee.
      * destruct second; now constructor.
      * destruct c; [congruence|discriminate].
Qed.
Lemma lax_block_opc o b : lax_opc o b -> o = O_block \/ o = O_loop \/ o = O_if_then \/ o = O_else_fi \/ o = O_end ->
  exists n, b = [n] /\ In (o, n) one_byte.
Proof.
  assert (forall l : list (opc * Z), forallb (fun x => negb (existsb (fun o => opc_code (fst x) =? opc_code o) [O_block; O_loop; O_if_then; O_else_fi; O_end])) l = true ->
    forall o n, In (o, n) l -> o = O_block \/ o = O_loop \/ o = O_if_then \/ o = O_else_fi \/ o = O_end -> False) as K.
  { intros l H o' n Hin Ho. rewrite forallb_forall in H. specialize (H _ Hin). cbn [fst] in H.
    destruct Ho as [->|[->|[->|[->| ->]]]]; vm_compute in H; discriminate. }
  intros H Ho. destruct H as [o n Hin|o n x Hin _|o n x Hin _]; [eauto|exfalso..].
  - refine (K after_fc _ o n Hin Ho). vm_compute. reflexivity.
  - refine (K after_fd _ o n Hin Ho). vm_compute. reflexivity.
Qed.
Lemma one_byte_code o n : In (o, n) one_byte -> opc_code o = n.
Proof.
  intros H. apply one_byte_ok in H as [_ H]. unfold opc_of_code in H. apply find_some in H as [_ H]. lia.
Qed.
Lemma inst_takes_f f : inst_takes (rd_inst_f f).
Proof.
  induction f as [|f IH]; intros r i r' Hr E; [discriminate|]. rewrite rd_inst_unfold in E. unfold bind in E.
  destruct (rd_opc r) as [[o|e] r1] eqn:Eo; [|discriminate]. destruct (takes_opc _ _ _ Hr Eo) as (c & -> & Hc).
  apply Forall_app in Hr as [_ Hr].
  assert (forall n, opc_code o = n -> o = O_block \/ o = O_loop \/ o = O_if_then \/ o = O_else_fi \/ o = O_end -> c = [n]) as KC.
  { intros n En Ho. destruct (lax_block_opc _ _ Hc Ho) as (n' & -> & Hin). apply one_byte_code in Hin. congruence. }
  destruct (rd_tree_cases o) as [->|[->|[->|Ep]]].
  - rewrite (KC 0x02) by (auto; reflexivity). cbn [rd_tree] in E. unfold bind in E.
    destruct (rd_bype r1) as [[t|e] r2] eqn:Et; [|discriminate].
    destruct (until f (rd_inst_f f) r2) as [[l|e] r3] eqn:El; [|discriminate]. injection E as <- <-.
    destruct (takes_bype _ _ _ Hr Et) as (x & -> & Hx). apply Forall_app in Hr as [_ Hr].
    destruct (until_takes _ IH _ _ _ _ Hr El) as (y & -> & Hy & _). exists (0x02 :: x ++ y). split; [cbn [app]; now rewrite <- app_assoc|].
    right. right. left. now constructor.
  - rewrite (KC 0x03) by (auto; reflexivity). cbn [rd_tree] in E. unfold bind in E.
    destruct (rd_bype r1) as [[t|e] r2] eqn:Et; [|discriminate].
    destruct (until f (rd_inst_f f) r2) as [[l|e] r3] eqn:El; [|discriminate]. injection E as <- <-.
    destruct (takes_bype _ _ _ Hr Et) as (x & -> & Hx). apply Forall_app in Hr as [_ Hr].
    destruct (until_takes _ IH _ _ _ _ Hr El) as (y & -> & Hy & _). exists (0x03 :: x ++ y). split; [cbn [app]; now rewrite <- app_assoc|].
    right. right. left. now constructor.
  - rewrite (KC 0x04) by (auto; reflexivity). cbn [rd_tree] in E. unfold bind in E.
    destruct (rd_bype r1) as [[t|e] r2] eqn:Et; [|discriminate].
    destruct (until_if f (rd_inst_f f) false r2) as [[[l k]|e] r3] eqn:El; [|discriminate]. injection E as <- <-.
    destruct (takes_bype _ _ _ Hr Et) as (x & -> & Hx). apply Forall_app in Hr as [_ Hr].
    destruct (until_if_takes _ IH _ _ _ _ _ Hr El) as (y & -> & Hy & _). exists (0x04 :: x ++ y). split; [cbn [app]; now rewrite <- app_assoc|].
    right. right. left. now constructor.
  - rewrite Ep in E. unfold bind in E. destruct (rd_args o r1) as [[a|e] r2] eqn:Ea; [|discriminate]. injection E as <- <-.
    destruct (Z.eq_dec (opc_code o) (opc_code O_end)) as [En|N1].
    { apply opc_code_inj in En. subst o. rewrite (KC 0x0b) by (auto; reflexivity). injection Ea as <- <-. exists [0x0b]. auto. }
    destruct (Z.eq_dec (opc_code o) (opc_code O_else_fi)) as [En|N2].
    { apply opc_code_inj in En. subst o. rewrite (KC 0x05) by (auto; reflexivity). injection Ea as <- <-. exists [0x05]. auto. }
    destruct (Z.eq_dec (opc_code o) (opc_code O_v128_const)) as [En|N3].
    { apply opc_code_inj in En. subst o. cbn [rd_args] in Ea. unfold bind in Ea.
      destruct (rd_bytes 16 r1) as [[d|e] r3] eqn:Ed; [|discriminate]. injection Ea as <- <-.
      destruct (bytes_full 16 _ _ _ ltac:(lia) Hr Ed) as (-> & Hd & _ & HL). exists (c ++ d). split; [now rewrite app_assoc|].
      right. right. destruct r3 as [|z r3]; [right; eauto|]. left. eapply li_op; [reflexivity|exact Hc|].
      constructor; [exact Hd|]. apply HL. discriminate. }
    destruct (takes_args o) with (r := r1) (a := a) (r' := r2) as (y & -> & s & Hs & Hy); try assumption; try congruence.
    { intros ->. specialize (Ep O). cbn in Ep. apply (f_equal (fun g => g [0x40])) in Ep. discriminate Ep. }
    { intros ->. specialize (Ep O). cbn in Ep. apply (f_equal (fun g => g [0x40])) in Ep. discriminate Ep. }
    { intros ->. specialize (Ep O). cbn in Ep. apply (f_equal (fun g => g [0x40])) in Ep. discriminate Ep. }
    exists (c ++ y). split; [now rewrite app_assoc|]. right. right. left. now apply (li_op o s).
Qed.
Lemma takes_expr : takes lax_seq rd_expr.
Proof.
  intros r l r' Hr E. unfold rd_expr in E.
  assert (inst_takes rd_inst) as Hi by (intros r0 i r1; apply inst_takes_f).
  destruct (until_takes _ Hi _ _ _ _ Hr E) as (b & -> & Hb & _). eauto.
Qed.

(* ---- parts of a module ---- *)
Lemma takes_locals : takes lax_locals rd_locals.
Proof.
  eapply takes_bind; [apply takes_u|]. intros n x Hx. eapply takes_bind; [apply takes_valtype|]. intros t y Hy. apply takes_ret.
  exists x, y. rewrite app_nil_r. auto.
Qed.
Lemma takes_global : takes lax_global rd_global.
Proof.
  eapply takes_bind; [apply takes_globaltype|]. intros t x Hx. eapply takes_bind; [apply takes_expr|]. intros e y Hy. apply takes_ret.
  exists x, y. rewrite app_nil_r. auto.
Qed.
Lemma takes_import : takes lax_import rd_import.
Proof.
  unfold rd_import. apply takes_name; [intros nm b r1; discriminate|]. intros m x Hx.
  apply takes_name; [intros nm b r'; discriminate|]. intros n y Hy.
  eapply takes_bind; [apply takes_ord|]. intros k z [_ ->].
  eapply takes_bind with (P := fun d w => exists v, match d with
    | ImpFunc t => exists w, number t w /\ v = 0x00 :: w
    | ImpTable t => exists w, lax_tabletype t w /\ v = 0x01 :: w
    | ImpMem t => exists w, lax_limits t w /\ v = 0x02 :: w
    | ImpGlobal t => exists w, enc_globaltype t w /\ v = 0x03 :: w end /\ k :: w = v).
  - destruct (Z.eqb_spec k 0) as [->|]; [|destruct (Z.eqb_spec k 1) as [->|]; [|destruct (Z.eqb_spec k 2) as [->|]; [|destruct (Z.eqb_spec k 3) as [->|]]]].
    + eapply takes_bind; [apply takes_u|]. intros i w Hw. apply takes_ret. rewrite app_nil_r. eexists. split; [|reflexivity]. eauto.
    + eapply takes_bind; [apply takes_tabletype|]. intros i w Hw. apply takes_ret. rewrite app_nil_r. eexists. split; [|reflexivity]. eauto.
    + eapply takes_bind; [apply takes_limits|]. intros i w Hw. apply takes_ret. rewrite app_nil_r. eexists. split; [|reflexivity]. eauto.
    + eapply takes_bind; [apply takes_globaltype|]. intros i w Hw. apply takes_ret. rewrite app_nil_r. eexists. split; [|reflexivity]. eauto.
    + apply takes_fail.
  - intros d w (v & Hv & Ev). apply takes_ret. rewrite app_nil_r. exists x, y, v. cbn [im_module im_name im_desc]. subst v. auto.
Qed.
Lemma takes_export : takes lax_export rd_export.
Proof.
  unfold rd_export. apply takes_name; [intros nm b r'; discriminate|]. intros nm x Hx.
  eapply takes_bind; [apply takes_ord|]. intros k z [_ ->]. eapply takes_bind; [apply takes_u|]. intros d y Hy.
  eapply takes_bind; [apply takes_assert|]. intros _ z [Ek ->]. apply takes_ret. rewrite !app_nil_r.
  exists x, y. cbn [ex_name ex_kind ex_desc]. split; [exact Hx|]. split; [lia|auto].
Qed.
Lemma takes_funcidx : takes lax_funcref rd_funcidx.
Proof. eapply takes_bind; [apply takes_u|]. intros i x Hx. apply takes_ret. rewrite app_nil_r. exists i. auto. Qed.
Lemma takes_elemkind : takes (fun _ x => x = [0x00]) rd_elemkind.
Proof.
  eapply takes_bind; [apply takes_ord|]. intros b x [_ ->]. eapply takes_weaken; [apply takes_assert|]. intros _ y [E ->].
  apply Z.eqb_eq in E. now subst.
Qed.
Lemma takes_elem : takes lax_elem rd_elem.
Proof.
  eapply takes_bind; [apply takes_u|]. intros k z Hz.
  repeat match goal with |- takes _ (if k =? ?c then _ else _) => destruct (Z.eqb_spec k c) as [->|_] end; [..|apply takes_fail];
  repeat first
    [ eapply takes_bind; [apply takes_expr|intros ? ? ?]
    | eapply takes_bind; [apply takes_vec, takes_funcidx|intros ? ? ?]
    | eapply takes_bind; [apply takes_vec, takes_expr|intros ? ? ?]
    | eapply takes_bind; [apply takes_elemkind|intros ? ? ->]
    | eapply takes_bind; [apply takes_valtype|intros ? ? ?]
    | eapply takes_bind; [apply takes_u|intros ? ? ?] ];
  apply takes_ret; rewrite app_nil_r; constructor; assumption.
Qed.
Lemma takes_counted {B} (Q : B -> list Z -> Prop) (f : list Z -> R B) :
  (forall d x, at_most d x -> takes (fun c y => Q c (x ++ y)) (f d)) -> takes Q (let! n := rd_u in let! d := rd_bytes n in f d).
Proof.
  intros H. eapply takes_bind; [apply takes_u|]. intros n c Hc. eapply takes_bind; [apply takes_bytes; now apply number_nonneg in Hc|].
  intros d x (-> & Hd & L). eapply takes_weaken; [apply (H d (c ++ d)); split; eauto 6|]. intros a y HQ. cbv beta in *. now rewrite app_assoc.
Qed.
Lemma takes_data : takes lax_data rd_data.
Proof.
  eapply takes_bind; [apply takes_u|]. intros k z Hz.
  repeat match goal with |- takes _ (if k =? ?c then _ else _) => destruct (Z.eqb_spec k c) as [->|_] end; [..|apply takes_fail].
  - eapply takes_bind; [apply takes_expr|]. intros e x Hx. apply takes_counted. intros d y Hy. apply takes_ret. rewrite app_nil_r. now constructor.
  - apply takes_counted. intros d y Hy. apply takes_ret. rewrite app_nil_r. now constructor.
  - eapply takes_bind; [apply takes_u|]. intros m w Hw. eapply takes_bind; [apply takes_expr|]. intros e x Hx.
    apply takes_counted. intros d y Hy. eapply takes_bind; [apply takes_assert|]. intros _ v [Em ->]. apply takes_ret.
    apply Z.eqb_eq in Em. subst m. rewrite !app_nil_r. now constructor.
Qed.
Lemma takes_func_code : takes (fun d b => exists x y, items lax_locals (fd_locals d) x /\ lax_seq (fd_expr d) y /\ b = x ++ y) rd_func_code.
Proof.
  eapply takes_bind; [apply takes_vec, takes_locals|]. intros l x Hx. eapply takes_bind; [apply takes_expr|]. intros e y Hy.
  apply takes_ret. exists x, y. rewrite app_nil_r. auto.
Qed.
(* the code section *)
Lemma upd_middle {A} (pre : list A) a b l : upd (pre ++ a :: l) (length pre) b = pre ++ b :: l.
Proof. induction pre as [|x pre IH]; cbn; [reflexivity|]. now rewrite IH. Qed.
Lemma takes_codes f : forall n pre fs, 0 <= n ->
  takes (fun fs' b => exists l bs, len l = n /\ Forall2 lax_code l bs /\ b = concat bs /\ (length l <= length fs)%nat /\ fs' = pre ++ with_code fs l)
    (rd_codes f n (len pre) (pre ++ fs)).
Proof.
  induction f as [|f IH]; intros n pre fs Hn; [apply takes_fail|]. cbn [rd_codes]. destruct (n <=? 0) eqn:En.
  - apply takes_ret. exists [], []. repeat split; [unfold len; cbn; lia|constructor|cbn; lia|]. destruct fs; reflexivity.
  - apply takes_counted. intros p x Hp. eapply takes_bind; [apply takes_result|]. intros d y [Ed ->].
    eapply takes_bind; [apply takes_result|]. intros fd y [Ef ->]. eapply takes_bind; [apply takes_result|]. intros fs1 y [Es ->].
    cbn [app]. unfold py_index in Ef. destruct (Z.ltb_spec (len pre) 0) as [G|_]; [unfold len in G; lia|]. cbv zeta in Ef.
    destruct (Z.ltb_spec (len pre) 0) as [G|_]; [unfold len in G; lia|].
    assert (Z.to_nat (len pre) = length pre) as EL by (unfold len; lia). rewrite EL in Ef.
    rewrite nth_error_app2, Nat.sub_diag in Ef by lia. destruct fs as [|fd' fs]; [discriminate|]. cbn in Ef. injection Ef as ->.
    rewrite py_setitem_in in Es by (unfold len; rewrite app_length; cbn; lia). apply Ok_inj in Es. rewrite EL, upd_middle in Es. subst fs1.
    set (c := mkfd (fd_type fd) (fd_locals d) (fd_expr d)).
    replace (len pre + 1) with (len (pre ++ [c])) by (unfold len; rewrite app_length; cbn; lia).
    replace (pre ++ c :: fs) with ((pre ++ [c]) ++ fs) by (now rewrite <- app_assoc).
    eapply takes_weaken; [apply (IH (n - 1)); lia|]. intros fs' z (l & bs & L & HF & -> & LL & ->).
    destruct Hp as [Bp Hp]. unfold on_bytes in Ed. destruct (rd_func_code p) as [r rest] eqn:Er. cbn [fst] in Ed. subst r.
    destruct (takes_func_code _ _ _ Bp Er) as (b & -> & x1 & y1 & Hx & Hy & ->).
    exists ((fd_locals d, fd_expr d) :: l), (x :: bs). split; [rewrite len_cons; lia|]. split.
    { constructor; [|exact HF]. exists ((x1 ++ y1) ++ rest), x1, y1, rest. split; [split; [exact Bp|exact Hp]|]. rewrite <- app_assoc. auto. }
    split; [reflexivity|]. split; [cbn [length]; lia|]. rewrite <- app_assoc. reflexivity.
Qed.

(* ---- sections ---- *)
Lemma takes_custom : takes (fun _ => lax_custom) rd_custom.
Proof.
  unfold rd_custom, rd_name. eapply takes_bind; [apply takes_u|]. intros n c Hc. eapply takes_bind with (P := fun s x => Forall scalar s /\ x = utf8 s /\ bytes x /\ len x <= n).
  - eapply takes_bind; [apply takes_bytes; now apply number_nonneg in Hc|]. intros d x (-> & Hd & L). apply takes_lift.
    intros s E. rewrite app_nil_r. destruct (utf8_sound _ _ Hd E) as [Hs <-]. auto.
  - intros s x (Hs & -> & Hd & L) r a r' Hr E. injection E as <- <-. exists r. split; [now rewrite app_nil_r|].
    exists s, (c ++ utf8 s), r. split; [exact Hs|]. split; [|now rewrite app_assoc]. split; [exact Hd|]. exists n, c. auto.
Qed.
Lemma takes_section id md : 0 <= id -> takes (fun md' x => lax_content id md x md') (rd_section id md).
Proof.
  intros Hid. destruct md as [ty fn tb me gl el da st im ex]. unfold rd_section.
  repeat match goal with |- takes _ (if id =? ?c then _ else _) => destruct (Z.eqb_spec id c) as [->|?] end.
  - eapply takes_bind; [apply takes_custom|]. intros c x Hx. apply takes_ret. rewrite app_nil_r. now constructor.
  - eapply takes_bind; [apply takes_vec, takes_functype|]. intros l x Hx. apply takes_ret. rewrite app_nil_r. now constructor.
  - eapply takes_bind; [apply takes_vec, takes_import|]. intros l x Hx. apply takes_ret. rewrite app_nil_r. now constructor.
  - eapply takes_bind; [apply takes_vec with (P := fun d x => exists t, d = mkfd t [] [] /\ number t x)|].
    { eapply takes_bind; [apply takes_u|]. intros t x Hx. apply takes_ret. rewrite app_nil_r. eauto. }
    intros l x (c & bs & Hc & HF & ->). apply takes_ret. rewrite app_nil_r.
    assert (exists ts, l = map (fun t => mkfd t [] []) ts /\ Forall2 number ts bs) as (ts & -> & HF').
    { clear Hc. induction HF as [|d b l bs (t & -> & Ht) _ IH]; [exists []; split; [reflexivity|constructor]|].
      destruct IH as (ts & -> & IH). exists (t :: ts). split; [reflexivity|now constructor]. }
    constructor. exists c, bs. unfold len in *. rewrite map_length in Hc. auto.
  - eapply takes_bind; [apply takes_vec, takes_tabletype|]. intros l x Hx. apply takes_ret. rewrite app_nil_r. now constructor.
  - eapply takes_bind; [apply takes_vec, takes_limits|]. intros l x Hx. apply takes_ret. rewrite app_nil_r. now constructor.
  - eapply takes_bind; [apply takes_vec, takes_global|]. intros l x Hx. apply takes_ret. rewrite app_nil_r. now constructor.
  - eapply takes_bind; [apply takes_vec, takes_export|]. intros l x Hx. apply takes_ret. rewrite app_nil_r. now constructor.
  - eapply takes_bind; [apply takes_u|]. intros l x Hx. apply takes_ret. rewrite app_nil_r. now constructor.
  - eapply takes_bind; [apply takes_vec, takes_elem|]. intros l x Hx. apply takes_ret. rewrite app_nil_r. now constructor.
  - eapply takes_bind; [apply takes_u|]. clear - fn ty tb me gl el da st im ex; intros n c Hc.
    eapply takes_bind with (P := fun fs' b => exists l bs, len l = n /\ Forall2 lax_code l bs /\ b = concat bs /\ (length l <= length fn)%nat /\ fs' = with_code fn l).
    { intros r. exact (takes_codes _ n [] fn (number_nonneg _ _ Hc) r). }
    intros fs x (l & bs & <- & HF & -> & LL & ->). apply takes_ret. rewrite app_nil_r. constructor; [|exact LL]. exists c, bs. auto.
  - eapply takes_bind; [apply takes_vec, takes_data|]. intros l x Hx. apply takes_ret. rewrite app_nil_r. now constructor.
  - eapply takes_bind; [apply takes_u|]. intros k x Hx. apply takes_ret. rewrite app_nil_r. econstructor. eassumption.
  - apply takes_ret. constructor. lia.
Qed.
Lemma takes_sections turns : forall md r md' r', bytes r -> rd_sections turns md r = (Ok md', r') ->
  exists all x, r = x ++ r' /\ lax_sections all md x md' /\ (r' = [] \/ length all = turns).
Proof.
  induction turns as [|k IH]; intros md r md' r' Hr E.
  - injection E as <- <-. exists [], []. split; [reflexivity|]. split; [constructor|auto].
  - cbn [rd_sections] in E. destruct r as [|id r]; [injection E as <- <-; exists [], []; split; [reflexivity|]; split; [constructor|auto]|].
    inversion Hr as [|? ? Hid Hr']; subst. unfold bind in E.
    destruct (rd_u r) as [[n|e] r1] eqn:En; [|discriminate]. destruct (takes_u _ _ _ Hr' En) as (c & -> & Hc).
    apply Forall_app in Hr' as [_ Hr']. destruct (rd_bytes n r1) as [[p|e] r2] eqn:Ep; [|discriminate].
    destruct (takes_bytes _ (number_nonneg _ _ Hc) _ _ _ Hr' Ep) as (p' & -> & -> & Hp & _).
    apply Forall_app in Hr' as [_ Hr']. unfold assert in E. destruct (Z.eqb_spec (len p) n) as [L|]; [|discriminate].
    unfold lift, on_bytes in E. destruct (rd_section id md p) as [[md1|e] rest] eqn:Es; [|discriminate]. cbn [fst] in E.
    destruct (IH _ _ _ _ Hr' E) as (all & x & -> & Hall & HE).
    destruct (takes_section id md ltac:(unfold byte in Hid; lia) _ _ _ Hp Es) as (y & -> & Hy).
    exists ((id, y ++ rest) :: all), (id :: c ++ (y ++ rest) ++ x). split; [cbn [app]; now rewrite <- !app_assoc|].
    split; [econstructor; try eassumption; congruence|]. destruct HE as [HE|HE]; [auto|right; cbn [length]; congruence].
Qed.
Lemma zs_eqb_eq a b : zs_eqb a b = true -> a = b.
Proof.
  revert b. induction a as [|x a IH]; intros [|y b] E; try discriminate; [reflexivity|]. cbn in E. apply andb_prop in E as [E1 E2].
  apply Z.eqb_eq in E1. f_equal; auto.
Qed.
Lemma accepted b md : bytes b -> module_from_reader b = Ok md -> lax_module md b.
Proof.
  intros Hb E. unfold module_from_reader, on_bytes, rd_module, bind in E.
  destruct (rd_bytes 4 b) as [[x|e] r1] eqn:E1; [|discriminate].
  destruct (takes_bytes 4 ltac:(lia) _ _ _ Hb E1) as (x' & -> & -> & _). apply Forall_app in Hb as [_ Hb].
  unfold assert, lift in E. destruct (zs_eqb x _) eqn:M1 in E; [|discriminate]. apply zs_eqb_eq in M1. subst x. cbn [py_assert] in E.
  destruct (rd_bytes 4 r1) as [[x|e] r2] eqn:E2; [|discriminate].
  destruct (takes_bytes 4 ltac:(lia) _ _ _ Hb E2) as (x' & -> & -> & _). apply Forall_app in Hb as [_ Hb].
  destruct (zs_eqb x _) eqn:M2 in E; [|discriminate]. apply zs_eqb_eq in M2. subst x. cbn [py_assert] in E.
  destruct (rd_sections 32 md_empty r2) as [r rest] eqn:Es. cbn [fst] in E. subst r.
  destruct (takes_sections _ _ _ _ _ Hb Es) as (all & x & -> & Hall & HE). exists all, x, rest. auto.
Qed.

(* ---- what is accepted beyond the standard ---- *)
Lemma limits_any k n m x y rest : byte k -> 1 < k -> u32 n x -> u32 m y ->
  rd_limits (k :: x ++ y ++ rest) = (Ok (mklim n m), rest) /\ forall l b, ~ enc_limits l (k :: b).
Proof.
  intros Hk Gk Hn Hm. split.
  - unfold rd_limits, bind. cbn [rd_ord]. rewrite (reads_u _ _ Hn). destruct (Z.eqb_spec k 0); [lia|]. cbn [negb].
    rewrite (reads_u _ _ Hm). reflexivity.
  - intros l b H. inversion H; subst; lia.
Qed.
Lemma block_type_any n rest : 64 < n < 0x6f ->
  rd_bype (n :: rest) = (Ok (BT_idx (n - 128)), rest) /\ forall t x, ~ enc_bype t (n :: x).
Proof.
  intros Hn. split.
  - unfold rd_bype. destruct (Z.eqb_spec n 0x40); [lia|].
    assert (vt_of_code n = Err EAssert) as ->.
    { unfold vt_of_code. repeat (match goal with |- context [?a =? ?b] => destruct (Z.eqb_spec a b); [lia|] end). reflexivity. }
    unfold bind, rd_i. change (n :: rest) with ([n] ++ rest). rewrite i_reader_group by (apply group_one; lia).
    rewrite base128_signed_one, Z.mod_small by lia. destruct (Z.leb_spec 64 n); [reflexivity|lia].
  - intros t x H. inversion H as [|t' x' Ht|i x' (Hg & _ & Hv & _) Hi]; subst; [lia| |].
    + unfold enc_valtype in Ht. injection Ht as -> _. destruct t'; lia.
    + destruct Hg as (pre & l & E & Hpre & Hl). destruct pre as [|p pre]; cbn in E.
      * injection E as -> ->. rewrite base128_signed_one, Z.mod_small in Hi by lia. destruct (Z.leb_spec 64 l); lia.
      * injection E as -> ->. apply Forall_inv in Hpre. lia.
Qed.
Lemma inst_first o : shape_of o <> None -> forall i n x, enc_inst i (n :: x) -> In (o, n) one_byte ->
  exists s args, shape_of o = Some s /\ i = IOp o args /\ enc_args s args x.
Proof.
  intros So i n x H Hin. apply one_byte_ok in Hin as [Hn Hin].
  assert (forall o', shape_of o' = None -> opc_of_code n <> Some o') as KS by congruence.
  remember (n :: x) as b eqn:E. destruct H as [o' s args y z Hs Ho Ha|t l y z _ _|t l y z _ _|t l y z _ _|t l k y z w _ _ _].
  - destruct Ho as [o2 n' Hin'|o2 n' b _ _|o2 n' b _ _]; cbn [app] in E; injection E as E1 E2; try lia.
    subst n' z. apply one_byte_ok in Hin' as [_ Hin']. rewrite Hin' in Hin. injection Hin as <-. eauto.
  - injection E as <- _. exfalso. now apply (KS O_block).
  - injection E as <- _. exfalso. now apply (KS O_loop).
  - injection E as <- _. exfalso. now apply (KS O_if_then).
  - injection E as <- _. exfalso. now apply (KS O_if_then).
Qed.
Lemma immediates_any :
  (forall b rest, byte b -> rd_inst (0xd0 :: b :: rest) = (Ok (IOp O_ref_null [AInt b]), rest)) /\
  (forall b x, b <> 0x70 -> b <> 0x6f -> ~ exists i, enc_inst i (0xd0 :: b :: x)) /\
  (forall b rest, byte b -> rd_inst (0x3f :: b :: rest) = (Ok (IOp O_memory_size [AInt b]), rest)) /\
  (forall b rest, byte b -> rd_inst (0x40 :: b :: rest) = (Ok (IOp O_memory_grow [AInt b]), rest)) /\
  (forall b x, b <> 0 -> ~ exists i, enc_inst i (0x3f :: b :: x) \/ enc_inst i (0x40 :: b :: x)) /\
  (forall n rest, 0 <= n < 128 -> rd_inst (0x1c :: 1 :: n :: rest) = (Ok (IOp O_select_type [AList [n]]), rest)) /\
  (forall n x, n < 0x6f -> ~ exists i, enc_inst i (0x1c :: 1 :: n :: x)).
Proof.
  assert (forall o n, opc_of_code n = Some o -> n < 0xfc -> forall f r, o <> O_block -> o <> O_loop -> o <> O_if_then ->
    rd_inst_f (S f) (n :: r) = (let! a := rd_args o in ret (IOp o a)) r) as K.
  { intros o n Ho Hn f r N1 N2 N3. rewrite rd_inst_unfold. unfold bind at 1. unfold rd_opc, bind at 1. cbn [rd_ord].
    destruct (n >=? 0xfc) eqn:E; [lia|]. unfold ret at 1, bind at 1. rewrite Ho. unfold ret at 1. destruct o; try congruence; reflexivity. }
  repeat split.
  - intros b x N1 N2 [i H]. apply (inst_first O_ref_null) in H as (s & args & Es & -> & Ha); [|discriminate|vm_compute; tauto].
    injection Es as <-. inversion Ha as [| | | | | | | | | | | | | |t y [Ht Hv] |  | |]; subst. unfold enc_valtype in Hv. injection Hv as Hv.
    destruct Ht as [->| ->]; congruence.
  - intros b x N [i [H|H]].
    + apply (inst_first O_memory_size) in H as (s & args & Es & -> & Ha); [|discriminate|vm_compute; tauto].
      injection Es as <-. inversion Ha; subst; congruence.
    + apply (inst_first O_memory_grow) in H as (s & args & Es & -> & Ha); [|discriminate|vm_compute; tauto].
      injection Es as <-. inversion Ha; subst; congruence.
  - intros n rest Hn. unfold rd_inst. rewrite (K O_select_type) by (try reflexivity; discriminate).
    cbn [rd_args]. unfold rd_vec, bind. rewrite (reads_lane 1 ltac:(lia) (n :: rest) : rd_u (1 :: n :: rest) = _).
    unfold rd_times. cbn [length]. cbn [times]. change (1 <=? 0) with false. cbn match. unfold bind.
    rewrite (reads_lane n Hn rest : rd_u (n :: rest) = _). change (1 - 1) with 0. destruct rest; reflexivity.
  - intros n x Hn [i H]. apply (inst_first O_select_type) in H as (s & args & Es & -> & Ha); [|discriminate|vm_compute; tauto].
    injection Es as <-. inversion Ha as [| | | |ts y Hv| | | | | | | | | | | | |]; subst. destruct Hv as (c & bs & (Hg & _ & Hc & _) & HF & E).
    destruct Hg as (pre & l & -> & Hpre & Hl). destruct pre as [|p pre].
    + cbn [app] in E. injection E as <- E. cbn in Hc. destruct HF as [|t b ts bs Ht HF]; [cbn in Hc; discriminate|].
      unfold enc_valtype in Ht. subst b. cbn [concat app] in E. injection E as -> _. destruct t; lia.
    + cbn [app] in E. injection E as <- _. apply Forall_inv in Hpre. lia.
Qed.
Lemma enc_module_first all md id c p : enc_module all md ([0; 0x61; 0x73; 0x6d; 1; 0; 0; 0] ++ id :: c ++ p) -> 0 <= id <= 12.
Proof.
  intros (bs & Hs & _ & HF & E). apply app_inv_head in E. destruct HF as [|[i q] b all bs (c' & _ & ->) HF]; [discriminate|].
  cbn [concat fst snd app] in E. injection E as -> _. cbn [filter fst] in Hs.
  destruct (Z.eqb_spec i 0) as [->|N]; [lia|]. cbn [negb] in Hs.
  assert (forall s, In s ((i, q) :: filter (fun s => negb (fst s =? 0)) all) -> 1 <= fst s <= 12) as K; [|specialize (K (i, q) (or_introl eq_refl)); cbn in K; lia].
  destruct Hs as (ty & im & fn & tb & me & gl & ex & st & el & dc & co & da & -> & H). intros s Hin.
  assert (forall A id (item : A -> list Z -> Prop) l ss, part id item l ss -> In s ss -> fst s = id) as KP.
  { intros A j item l ss [[_ ->]|(p' & -> & _)] Hi; [destruct Hi|]. destruct Hi as [<-|[]]. reflexivity. }
  destruct H as (H1 & H2 & H3 & H4 & H5 & H6 & H7 & H8 & H9 & H10 & H11 & H12). rewrite !in_app_iff in Hin.
  decompose [or] Hin;
  try solve [match goal with H : part _ _ _ ?ss, H' : In s ?ss |- _ => rewrite (KP _ _ _ _ _ H H'); lia end].
  - destruct H8 as [[_ ->]|(p' & -> & _)]; [contradiction|]. match goal with H : In s [_] |- _ => destruct H as [<-|[]] end. cbn; lia.
  - destruct H10 as [->|(n & p' & -> & _)]; [contradiction|]. match goal with H : In s [_] |- _ => destruct H as [<-|[]] end. cbn; lia.
Qed.
Lemma section_any id p c : byte id -> 12 < id -> bytes p -> u32 (len p) c ->
  module_from_reader ([0; 0x61; 0x73; 0x6d; 1; 0; 0; 0] ++ id :: c ++ p) = Ok no_parts /\
  forall all md, ~ enc_module all md ([0; 0x61; 0x73; 0x6d; 1; 0; 0; 0] ++ id :: c ++ p).
Proof.
  intros Hid G Hp Hc. split.
  - unfold module_from_reader, on_bytes.
    change (rd_module ([0; 0x61; 0x73; 0x6d; 1; 0; 0; 0] ++ id :: c ++ p)) with
      (rd_module ([0; 0x61; 0x73; 0x6d] ++ [1; 0; 0; 0] ++ id :: c ++ p)). unfold rd_module, bind.
    rewrite (reads_bytes [0; 0x61; 0x73; 0x6d] 4) by (reflexivity || lia). unfold assert, lift. cbn [zs_eqb Z.eqb Pos.eqb andb py_assert].
    rewrite (reads_bytes [1; 0; 0; 0] 4) by (reflexivity || lia). cbn [zs_eqb Z.eqb Pos.eqb andb py_assert].
    cbn [rd_sections]. unfold bind. rewrite (reads_u _ _ Hc). rewrite <- (app_nil_r p) at 2.
    rewrite (reads_bytes p (len p)) by (try reflexivity; destruct Hc as (_ & _ & _ & L); lia).
    unfold assert, lift. rewrite Z.eqb_refl. cbn [py_assert]. unfold on_bytes.
    assert (rd_section id md_empty p = (Ok md_empty, p)) as ->; [|reflexivity].
    unfold rd_section, md_empty. repeat (match goal with |- context [id =? ?k] => destruct (Z.eqb_spec id k); [lia|] end). reflexivity.
  - intros all md H. apply enc_module_first in H. lia.
Qed.
(* the place of a section in the standard's order *)
Definition place (s : section) : Z := if fst s =? 12 then 19 else if 10 <=? fst s then fst s + 10 else 2 * fst s.
Definition above (k : Z) (l : list section) : Prop :=
  StronglySorted (fun a b => place a < place b) l /\ Forall (fun a => k < place a) l.
Lemma above_nil k : above k [].
Proof. split; constructor. Qed.
Lemma above_app k j x l : x = [] \/ (exists s, x = [s] /\ place s = j) -> k < j -> above j l -> above k (x ++ l).
Proof.
  intros [->|(s & -> & Hs)] L [S F]; cbn [app].
  - split; [exact S|]. eapply Forall_impl; [|exact F]. intros a H. cbv beta in *. lia.
  - split; constructor; try assumption.
    + eapply Forall_impl; [|exact F]. intros a H. cbv beta in *. lia.
    + lia.
    + eapply Forall_impl; [|exact F]. intros a H. cbv beta in *. lia.
Qed.
Lemma standard_order md ss : standard_sections md ss -> above 0 ss.
Proof.
  intros (ty & im & fn & tb & me & gl & ex & st & el & dc & co & da & -> & H1 & H2 & H3 & H4 & H5 & H6 & H7 & H8 & H9 & H10 & H11 & H12).
  assert (forall A id (item : A -> list Z -> Prop) l ss, part id item l ss -> ss = [] \/ (exists s, ss = [s] /\ place s = place (id, []))) as KP.
  { intros A j item l ss [[_ ->]|(p' & -> & _)]; [now left|]. right. eexists. split; reflexivity. }
  apply KP in H1, H2, H3, H4, H5, H6, H7, H9, H11, H12. rewrite <- (app_nil_r da).
  eapply above_app; [eassumption|reflexivity|]. eapply above_app; [eassumption|reflexivity|]. eapply above_app; [eassumption|reflexivity|].
  eapply above_app; [eassumption|reflexivity|]. eapply above_app; [eassumption|reflexivity|]. eapply above_app; [eassumption|reflexivity|].
  eapply above_app; [eassumption|reflexivity|].
  eapply (above_app _ (place (8, []))); [destruct H8 as [[_ ->]|(p' & -> & _)]; [now left|right; eexists; split; reflexivity]|reflexivity|].
  eapply above_app; [eassumption|reflexivity|].
  eapply (above_app _ (place (12, []))); [destruct H10 as [->|(n & p' & -> & _)]; [now left|right; eexists; split; reflexivity]|reflexivity|].
  eapply above_app; [eassumption|reflexivity|]. eapply above_app; [eassumption|reflexivity|]. apply above_nil.
Qed.
(* the sections of a module are read off its bytes *)
Lemma sections_read all bs id n rest : Forall2 enc_section all bs -> concat bs = id :: n :: rest -> 0 <= n < 128 -> (Z.to_nat n <= length rest)%nat ->
  exists all' bs', all = (id, firstn (Z.to_nat n) rest) :: all' /\ Forall2 enc_section all' bs' /\ concat bs' = skipn (Z.to_nat n) rest.
Proof.
  intros HF E Hn L. destruct HF as [|[i q] b all bs (c & (Hg & _ & Hc & _) & ->) HF]; [discriminate|]. cbn [concat fst snd app] in *.
  injection E as -> E. destruct Hg as (pre & l & -> & Hpre & Hl). destruct pre as [|p0 pre]; cbn [app] in E; injection E as -> E.
  - cbn [base128 app] in Hc. rewrite Z.mod_small in Hc by lia. assert (length q = Z.to_nat n) as Lq by (unfold len in Hc; lia).
    subst rest. exists all, bs. rewrite <- Lq, firstn_app, skipn_app, Nat.sub_diag, firstn_all, skipn_all.
    cbn [firstn skipn app]. rewrite app_nil_r. auto.
  - apply Forall_inv in Hpre. lia.
Qed.
Lemma wrong_order all md id1 n1 p1 id2 n2 p2 : 0 <= n1 < 128 -> 0 <= n2 < 128 -> length p1 = Z.to_nat n1 -> length p2 = Z.to_nat n2 ->
  id1 <> 0 -> id2 <> 0 -> place (id2, []) <= place (id1, []) ->
  ~ enc_module all md ([0; 0x61; 0x73; 0x6d; 1; 0; 0; 0] ++ id1 :: n1 :: p1 ++ id2 :: n2 :: p2).
Proof.
  intros Hn1 Hn2 L1 L2 N1 N2 HP (bs & Hs & _ & HF & E). apply app_inv_head in E. symmetry in E.
  destruct (sections_read _ _ _ _ _ HF E Hn1) as (all1 & bs1 & -> & HF1 & E1); [rewrite app_length; lia|].
  rewrite <- L1, skipn_app, skipn_all, Nat.sub_diag in E1. cbn [skipn app] in E1.
  destruct (sections_read _ _ _ _ _ HF1 E1 Hn2) as (all2 & bs2 & -> & HF2 & E2); [lia|].
  apply standard_order in Hs as [Hs _]. cbn [filter fst] in Hs.
  destruct (Z.eqb_spec id1 0); [easy|]. destruct (Z.eqb_spec id2 0); [easy|]. cbn [negb] in Hs.
  inversion Hs as [|? ? _ F]; subst. apply Forall_inv in F. unfold place in *. cbn [fst] in *. lia.
Qed.
Lemma order_any :
  (exists md, module_from_reader [0; 0x61; 0x73; 0x6d; 1; 0; 0; 0; 5; 3; 1; 0; 1; 4; 4; 1; 0x70; 0; 1] = Ok md /\
    md_mems md = [mklim 1 0] /\ md_tabl md = [mktt T_func (mklim 1 0)] /\
    forall all md, ~ enc_module all md [0; 0x61; 0x73; 0x6d; 1; 0; 0; 0; 5; 3; 1; 0; 1; 4; 4; 1; 0x70; 0; 1]) /\
  (exists md, module_from_reader [0; 0x61; 0x73; 0x6d; 1; 0; 0; 0; 5; 3; 1; 0; 1; 5; 3; 1; 0; 2] = Ok md /\
    md_mems md = [mklim 1 0; mklim 2 0] /\
    forall all md, ~ enc_module all md [0; 0x61; 0x73; 0x6d; 1; 0; 0; 0; 5; 3; 1; 0; 1; 5; 3; 1; 0; 2]).
Proof.
  split.
  - eexists. split; [vm_compute; reflexivity|]. split; [reflexivity|]. split; [reflexivity|]. intros all md.
    apply (wrong_order all md 5 3 [1; 0; 1] 4 4 [1; 0x70; 0; 1]); try reflexivity; cbn; lia.
  - eexists. split; [vm_compute; reflexivity|]. split; [reflexivity|]. intros all md.
    apply (wrong_order all md 5 3 [1; 0; 1] 5 3 [1; 0; 2]); try reflexivity; cbn; lia.
Qed.
