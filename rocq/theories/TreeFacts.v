(* Facts about the reader (Decode.v): instruction trees and modules. *)
From Coq Require Import ZArith List Bool Lia.
From Verif Require Import Py Leb128 Val Opcode Numeric Syntax Store Utf8 Decode SpecLeb SpecMem SpecFormat PyFacts LebFacts
  DecodeFacts.
Import ListNotations.
Open Scope Z_scope.

(* ---- instruction trees ---- *)
Scheme enc_inst_ind2 := Minimality for enc_inst Sort Prop with enc_seq_ind2 := Minimality for enc_seq Sort Prop.
Combined Scheme enc_mut from enc_inst_ind2, enc_seq_ind2.

Definition delimiter (i : inst) : bool := inst_is O_end i || inst_is O_else_fi i.
Lemma until_step f p i l0 r r1 rest : p r = (Ok i, r1) -> delimiter i = false -> until f p r1 = (Ok l0, rest) ->
  until (S f) p r = (Ok (i :: l0), rest).
Proof.
  intros Hp Hd Hu. apply orb_false_elim in Hd as [Hd _]. cbn [until]. unfold bind at 1. rewrite Hp, Hd.
  unfold bind. now rewrite Hu.
Qed.
Lemma until_if_step f p i s l0 k0 r r1 rest : p r = (Ok i, r1) -> delimiter i = false ->
  until_if f p s r1 = (Ok (l0, k0), rest) ->
  until_if (S f) p s r = (Ok (if s then (l0, i :: k0) else (i :: l0, k0)), rest).
Proof.
  intros Hp Hd Hu. apply orb_false_elim in Hd as [Hd He]. cbn [until_if]. unfold bind at 1. rewrite Hp, Hd, He.
  unfold bind. now rewrite Hu.
Qed.
Lemma reads_one o n f rest : In (o, n) one_byte -> rd_args o = ret [] ->
  match o with O_block | O_loop | O_if_then => False | _ => True end -> rd_inst_f (S f) (n :: rest) = (Ok (IOp o []), rest).
Proof.
  intros Hin Ha Hn. cbn [rd_inst_f]. unfold bind at 1.
  rewrite (reads_opc o [n] (opc_one o n Hin) rest : rd_opc (n :: rest) = _).
  destruct o; try easy; unfold bind; now rewrite Ha.
Qed.
Lemma reads_end f rest : rd_inst_f (S f) (0x0b :: rest) = (Ok (IOp O_end []), rest).
Proof. apply reads_one; [vm_compute; tauto|reflexivity|exact I]. Qed.
Lemma reads_else f rest : rd_inst_f (S f) (0x05 :: rest) = (Ok (IOp O_else_fi []), rest).
Proof. apply reads_one; [vm_compute; tauto|reflexivity|exact I]. Qed.
Lemma until_end f g rest : until (S f) (rd_inst_f (S g)) (0x0b :: rest) = (Ok [], rest).
Proof. cbn [until]. unfold bind. now rewrite reads_end. Qed.
Lemma until_if_end f g s rest : until_if (S f) (rd_inst_f (S g)) s (0x0b :: rest) = (Ok ([], []), rest).
Proof. cbn [until_if]. unfold bind. now rewrite reads_end. Qed.
Lemma until_if_else f g s r : until_if (S f) (rd_inst_f (S g)) s (0x05 :: r) = until_if f (rd_inst_f (S g)) true r.
Proof. cbn [until_if]. unfold bind. now rewrite reads_else. Qed.

Definition inst_reads (i : inst) (b : list Z) : Prop :=
  (0 < length b)%nat /\ delimiter i = false /\ forall f rest, (length b <= f)%nat -> rd_inst_f f (b ++ rest) = (Ok i, rest).
Definition seq_reads (l : list inst) (b : list Z) : Prop :=
  (length l <= length b)%nat /\
  (forall f g tail l0 rest, (length b <= g)%nat -> until f (rd_inst_f g) tail = (Ok l0, rest) ->
    until (length l + f) (rd_inst_f g) (b ++ tail) = (Ok (l ++ l0), rest)) /\
  (forall f g s tail l0 k0 rest, (length b <= g)%nat -> until_if f (rd_inst_f g) s tail = (Ok (l0, k0), rest) ->
    until_if (length l + f) (rd_inst_f g) s (b ++ tail) = (Ok (if s then (l0, l ++ k0) else (l ++ l0, k0)), rest)).

Lemma seq_body l y f g rest : seq_reads l y -> (length y < f)%nat -> (length y < g)%nat ->
  until f (rd_inst_f g) (y ++ 0x0b :: rest) = (Ok l, rest).
Proof.
  intros (L & H & _) Hf Hg. destruct g as [|g]; [lia|].
  pose proof (H (S (f - length l - 1))%nat (S g) (0x0b :: rest) [] rest ltac:(lia) (until_end _ _ _)) as E.
  rewrite app_nil_r in E. replace (length l + S (f - length l - 1))%nat with f in E by lia. exact E.
Qed.
Lemma seq_body_if l y f g rest : seq_reads l y -> (length y < f)%nat -> (length y < g)%nat ->
  until_if f (rd_inst_f g) false (y ++ 0x0b :: rest) = (Ok (l, []), rest).
Proof.
  intros (L & _ & H) Hf Hg. destruct g as [|g]; [lia|].
  pose proof (H (S (f - length l - 1))%nat (S g) false (0x0b :: rest) [] [] rest ltac:(lia) (until_if_end _ _ _ _)) as E.
  rewrite app_nil_r in E. replace (length l + S (f - length l - 1))%nat with f in E by lia. exact E.
Qed.
Lemma seq_body_if_else l k y z f g rest : seq_reads l y -> seq_reads k z ->
  (length y + length z + 1 < f)%nat -> (length y < g)%nat -> (length z < g)%nat ->
  until_if f (rd_inst_f g) false (y ++ 0x05 :: z ++ 0x0b :: rest) = (Ok (l, k), rest).
Proof.
  intros (L & _ & H) (K & _ & H') Hf Hg Hg'. destruct g as [|g]; [lia|].
  pose proof (H' (S (f - length l - length k - 2))%nat (S g) true (0x0b :: rest) [] [] rest ltac:(lia) (until_if_end _ _ _ _)) as E.
  cbn match in E. rewrite app_nil_r in E.
  rewrite <- (until_if_else _ g false) in E.
  apply (H _ (S g) false) in E; [|lia]. cbn match in E. rewrite app_nil_r in E.
  replace (length l + S (length k + S (f - length l - length k - 2)))%nat with f in E by lia. exact E.
Qed.

Lemma trees_read : (forall i b, enc_inst i b -> inst_reads i b) /\ (forall l b, enc_seq l b -> seq_reads l b).
Proof.
  apply enc_mut.
  - (* plain *) intros o s args x y Hs Ho Ha. split; [|split].
    + rewrite app_length. apply enc_opc_nonnil in Ho. destruct x; [easy|]. cbn. lia.
    + destruct o; first [discriminate Hs|reflexivity].
    + intros f rest Hf. destruct f as [|f].
      { rewrite app_length in Hf. apply enc_opc_nonnil in Ho. destruct x; [easy|]. cbn in Hf. lia. }
      cbn [rd_inst_f]. unfold bind at 1. rewrite <- app_assoc, (reads_opc o x Ho).
      assert ((let! a := rd_args o in ret (IOp o a)) (y ++ rest) = (Ok (IOp o args), rest)) as E.
      { unfold bind. rewrite (reads_args o s args y Hs Ha). reflexivity. }
      destruct o; first [discriminate Hs | exact E].
  - (* block *) intros t l x y Ht _ Hl. split; [cbn; lia|split].
    + reflexivity.
    + intros f rest Hf. cbn in Hf. rewrite !app_length in Hf. cbn in Hf. destruct f as [|f]; [lia|].
      assert (0 < length x)%nat by (apply enc_bype_nonnil in Ht; destruct x; [easy|cbn; lia]).
      cbn [rd_inst_f app]. unfold bind at 1.
      rewrite (reads_opc O_block [0x02] (opc_one O_block _ ltac:(vm_compute; tauto)) _ : rd_opc (0x02 :: _) = _).
      unfold bind at 1. rewrite <- !app_assoc, (reads_bype t x Ht). unfold bind.
      cbn [app]. rewrite (seq_body l y f f rest Hl) by lia. reflexivity.
  - (* loop *) intros t l x y Ht _ Hl. split; [cbn; lia|split].
    + reflexivity.
    + intros f rest Hf. cbn in Hf. rewrite !app_length in Hf. cbn in Hf. destruct f as [|f]; [lia|].
      assert (0 < length x)%nat by (apply enc_bype_nonnil in Ht; destruct x; [easy|cbn; lia]).
      cbn [rd_inst_f app]. unfold bind at 1.
      rewrite (reads_opc O_loop [0x03] (opc_one O_loop _ ltac:(vm_compute; tauto)) _ : rd_opc (0x03 :: _) = _).
      unfold bind at 1. rewrite <- !app_assoc, (reads_bype t x Ht). unfold bind.
      cbn [app]. rewrite (seq_body l y f f rest Hl) by lia. reflexivity.
  - (* if *) intros t l x y Ht _ Hl. split; [cbn; lia|split].
    + reflexivity.
    + intros f rest Hf. cbn in Hf. rewrite !app_length in Hf. cbn in Hf. destruct f as [|f]; [lia|].
      assert (0 < length x)%nat by (apply enc_bype_nonnil in Ht; destruct x; [easy|cbn; lia]).
      cbn [rd_inst_f app]. unfold bind at 1.
      rewrite (reads_opc O_if_then [0x04] (opc_one O_if_then _ ltac:(vm_compute; tauto)) _ : rd_opc (0x04 :: _) = _).
      unfold bind at 1. rewrite <- !app_assoc, (reads_bype t x Ht). unfold bind.
      cbn [app]. rewrite (seq_body_if l y f f rest Hl) by lia. reflexivity.
  - (* if else *) intros t l k x y z Ht _ Hl _ Hk. split; [cbn; lia|split].
    + reflexivity.
    + intros f rest Hf. cbn in Hf. rewrite ?app_length in Hf. cbn in Hf. rewrite ?app_length in Hf. cbn in Hf.
      destruct f as [|f]; [lia|].
      assert (0 < length x)%nat by (apply enc_bype_nonnil in Ht; destruct x; [easy|cbn; lia]).
      cbn [rd_inst_f app]. unfold bind at 1.
      rewrite (reads_opc O_if_then [0x04] (opc_one O_if_then _ ltac:(vm_compute; tauto)) _ : rd_opc (0x04 :: _) = _).
      unfold bind at 1. rewrite <- !app_assoc, (reads_bype t x Ht). unfold bind.
      cbn [app]. rewrite <- app_assoc. cbn [app]. rewrite (seq_body_if_else l k y z f f rest Hl Hk) by lia. reflexivity.
  - split; [cbn; lia|split].
    + intros. exact H0.
    + intros. cbn [length app Nat.add]. now destruct s.
  - intros i l x y _ (Li & Di & Hi) _ (Ll & Hu & Hif). split; [rewrite app_length; cbn; lia|split].
    + intros f g tail l0 rest Hg Ht. rewrite app_length in Hg. cbn [length Nat.add app]. rewrite <- app_assoc.
      eapply until_step; [apply Hi; lia|exact Di|]. apply Hu; [lia|exact Ht].
    + intros f g s tail l0 k0 rest Hg Ht. rewrite app_length in Hg. cbn [length Nat.add app]. rewrite <- app_assoc.
      pose proof (Hif f g s tail l0 k0 rest ltac:(lia) Ht) as E.
      destruct s; apply (until_if_step _ _ _ _ _ _ _ _ _ (Hi g (y ++ tail) ltac:(lia)) Di E).
Qed.

Lemma inst_roundtrip i b : enc_inst i b -> reads rd_inst b i.
Proof. intros H rest. destruct trees_read as [T _]. destruct (T i b H) as (_ & _ & E). apply E. rewrite app_length. lia. Qed.

