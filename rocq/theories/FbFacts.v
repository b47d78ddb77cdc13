(** * Frame buffers seen through [pixel] *)
From Coq Require Import ZArith.
From Verif Require Export PrimFacts Geom Spec.

Lemma frbuf_length fb : is_frbuf fb -> length fb = N.to_nat 5896.
Proof. intros [H _]; unfold FRAME_BUF_SIZE, WORDS_PER_LINE, LINES in H; lia. Qed.

Lemma upd_frbuf fb i v : is_frbuf fb -> v < 2 ^ 32 -> is_frbuf (upd fb i v).
Proof.
  intros [HL HF] Hv; split; [rewrite upd_length; exact HL|].
  apply Forall_upd; assumption.
Qed.

Lemma fb_aget fb i : is_frbuf fb -> i < 5896 -> aget fb i = Ret (nth (N.to_nat i) fb 0).
Proof. intros H Hi; apply aget_ok; rewrite (frbuf_length fb H); lia. Qed.

Lemma fb_aset fb i v : is_frbuf fb -> i < 5896 -> aset fb i v = Ret (upd fb (N.to_nat i) v).
Proof. intros H Hi; apply aset_ok; rewrite (frbuf_length fb H); lia. Qed.

Lemma fb_word_lt fb i : is_frbuf fb -> i < 5896 -> nth (N.to_nat i) fb 0 < 2 ^ 32.
Proof.
  intros H Hi; apply (Forall_nth_in (fun w => w < 2 ^ 32)); [apply H|].
  rewrite (frbuf_length fb H); lia.
Qed.

Lemma pixel_upd fb y w v X Y :
  is_frbuf fb -> y < 536 -> w < 11 -> X < 352 -> Y < 536 ->
  pixel (upd fb (N.to_nat (y * 11 + w)) v) X Y
  = if (Y =? y) && (X / 32 =? w) then N.testbit v (X mod 32) else pixel fb X Y.
Proof.
  intros H Hy Hw HX HY; unfold pixel, WORDS_PER_LINE.
  rewrite upd_nth by (rewrite (frbuf_length fb H); lia).
  destruct (Nat.eqb_spec (N.to_nat (Y * 11 + X / 32)) (N.to_nat (y * 11 + w))) as [E|E];
  destruct (N.eqb_spec Y y) as [E1|E1]; destruct (N.eqb_spec (X / 32) w) as [E2|E2];
  simpl; try reflexivity; exfalso; lia.
Qed.

Lemma pixel_ext fb1 fb2 :
  is_frbuf fb1 -> is_frbuf fb2 ->
  (forall x y, x < 352 -> y < 536 -> pixel fb1 x y = pixel fb2 x y) -> fb1 = fb2.
Proof.
  intros H1 H2 H.
  apply nth_ext with (d := 0) (d' := 0).
  - rewrite (frbuf_length fb1 H1), (frbuf_length fb2 H2); reflexivity.
  - intros n Hn; rewrite (frbuf_length fb1 H1) in Hn.
    apply N.bits_inj; intros i.
    destruct (N.lt_ge_cases i 32) as [Hi|Hi].
    + pose (k := N.of_nat n).
      assert (Hk : k < 5896) by lia.
      specialize (H (32 * (k mod 11) + i) (k / 11) ltac:(lia) ltac:(lia)).
      unfold pixel, WORDS_PER_LINE in H.
      replace ((32 * (k mod 11) + i) / 32) with (k mod 11) in H by lia.
      replace ((32 * (k mod 11) + i) mod 32) with i in H by lia.
      replace (N.to_nat (k / 11 * 11 + k mod 11)) with n in H by lia.
      exact H.
    + pose proof (fb_word_lt fb1 (N.of_nat n) H1 ltac:(lia)) as L1.
      pose proof (fb_word_lt fb2 (N.of_nat n) H2 ltac:(lia)) as L2.
      rewrite Nnat.Nat2N.id in L1, L2.
      rewrite (testbit_high _ 32 i L1 Hi), (testbit_high _ 32 i L2 Hi); reflexivity.
Qed.
