(** * Properties C34 - C37: table search and hashes *)
From Coq Require Import ZArith.
From Verif Require Import Prim PrimFacts Str M3Hash FontDefs SpecPaint LookupProofs HashProofs.

(** C34 *)
Theorem C34_binary_search : forall s key,
  (forall i j, (i < j < length s)%nat -> nth i s 0 < nth j s 0) ->
  (forall i, binary_search s key = Some i <-> nth_error s (N.to_nat i) = Some key) /\
  (binary_search s key = None <-> ~ In key s).
Proof.
  intros s key Hs. rewrite (binary_search_spec s key Hs). split.
  - intros i. split.
    + destruct (index_of key s) as [k|] eqn:E; [|discriminate].
      intros H; injection H as <-. rewrite Nnat.Nat2N.id. apply index_of_some. exact E.
    + intros H. rewrite (index_of_unique key s _ Hs H). simpl. rewrite Nnat.N2Nat.id. reflexivity.
  - rewrite <- index_of_none. destruct (index_of key s); simpl; split; congruence.
Qed.
Print Assumptions C34_binary_search.

Example C34_case : binary_search [2; 3; 5; 7; 11; 13] 7 = Some 3 /\ binary_search [2; 3; 5; 7; 11; 13] 6 = None.
Proof. split; reflexivity. Qed.

(** C35 *)
Theorem C35_one_word_changes_hash : forall fb1 fb2 seed i,
  seed < 2 ^ 32 -> Forall (fun w => w < 2 ^ 32) fb1 -> Forall (fun w => w < 2 ^ 32) fb2 ->
  length fb1 = length fb2 -> (i < length fb1)%nat ->
  (forall j, j <> i -> nth j fb1 0 = nth j fb2 0) -> nth i fb1 0 <> nth i fb2 0 ->
  m3_frame_buffer fb1 seed <> m3_frame_buffer fb2 seed.
Proof. exact fb_hash_differs. Qed.
Print Assumptions C35_one_word_changes_hash.

Theorem C35_seed_changes_hash : forall fb s1 s2,
  s1 < 2 ^ 32 -> s2 < 2 ^ 32 -> s1 <> s2 -> m3_frame_buffer fb s1 <> m3_frame_buffer fb s2.
Proof. intros fb s1 s2 H1 H2 Hn E. apply Hn. exact (fb_hash_seed fb s1 s2 H1 H2 E). Qed.
Print Assumptions C35_seed_changes_hash.

(** The values the repository's tests expect (src/m3hash.rs:121-180) *)
Example C35_case : m3_frame_buffer [0] 0 = 0x9B9CB39A /\ m3_frame_buffer [0] 1 = 0xC8C1D2C1 /\
                   m3_frame_buffer [0x500] 0 = 0x7DEFDA4F.
Proof. repeat split; vm_compute; reflexivity. Qed.

(** C36 *)
Theorem C36_hashes_a_prefix : forall s seed limit,
  let p := firstn (N.to_nat limit) s in
  grapheme_cluster s seed limit = grapheme_cluster p seed limit /\
  snd (grapheme_cluster s seed limit) = str_len p /\
  slice_from s (snd (grapheme_cluster s seed limit)) = Ret (skipn (N.to_nat limit) s).
Proof.
  intros s seed limit p. rewrite !grapheme_cluster_spec. cbn [snd].
  replace (firstn (N.to_nat limit) p) with p by (unfold p; rewrite firstn_firstn, Nat.min_id; reflexivity).
  repeat split. apply slice_prefix.
Qed.
Print Assumptions C36_hashes_a_prefix.

(** The values the repository's tests expect (src/m3hash.rs:78-118) *)
Example C36_case :
  grapheme_cluster [116; 101; 115; 116] 0 1 = (0x31099644, 1) /\
  grapheme_cluster [0x1F638; 116; 101; 115; 116] 0 1 = (0x86E5DD9A, 4) /\
  grapheme_cluster [0x1F4FA; 0xFE0F] 0 2 = (0x7C5E300, 7).
Proof. repeat split; vm_compute; reflexivity. Qed.

(** C37: two clusters that differ in one character, of the same encoded length, never
    share a hash; in particular (a and b empty) two single characters. *)
Theorem C37_one_character_changes_hash : forall a b x y seed limit,
  seed < 2 ^ 32 -> x < 2 ^ 32 -> y < 2 ^ 32 -> len_utf8 x = len_utf8 y ->
  N.of_nat (length (a ++ x :: b)) <= limit -> x <> y ->
  fst (grapheme_cluster (a ++ x :: b) seed limit) <> fst (grapheme_cluster (a ++ y :: b) seed limit).
Proof.
  intros a b x y seed limit Hs Hx Hy Hlen Hlim Hne E. apply Hne.
  rewrite app_length in Hlim. cbn [length] in Hlim.
  rewrite !grapheme_cluster_spec in E. cbn [fst] in E.
  rewrite !firstn_all2 in E by (rewrite app_length; cbn [length]; lia).
  unfold hash_all in E.
  assert (L : str_len (a ++ x :: b) = str_len (a ++ y :: b)) by (rewrite !str_len_app; cbn [str_len]; lia).
  rewrite L in E.
  apply avalanche_inj in E; try (apply lxor_u32; [apply fold_mix_lt; assumption|apply w32_lt]).
  apply lxor_cancel_r in E. rewrite !fold_left_app in E. cbn [fold_left] in E.
  apply fold_mix_inj in E; [|apply mix_lt|apply mix_lt].
  eapply mix_inj_key; [|eassumption|eassumption|exact E]. apply fold_mix_lt; assumption.
Qed.
Print Assumptions C37_one_character_changes_hash.

Theorem C37_single_characters : forall x y s t seed,
  seed < 2 ^ 32 -> x < 2 ^ 32 -> y < 2 ^ 32 -> len_utf8 x = len_utf8 y -> x <> y ->
  fst (grapheme_cluster (x :: s) seed 1) <> fst (grapheme_cluster (y :: t) seed 1).
Proof.
  intros x y s t seed Hs Hx Hy Hl Hne.
  pose proof (C37_one_character_changes_hash [] [] x y seed 1 Hs Hx Hy Hl ltac:(simpl; lia) Hne) as H.
  rewrite !grapheme_cluster_spec in *. exact H.
Qed.
Print Assumptions C37_single_characters.

Example C37_case : len_utf8 0x4E00 = len_utf8 0x4E01 /\
  fst (grapheme_cluster [0x4E00] 0 1) <> fst (grapheme_cluster [0x4E01] 0 1).
Proof. split; [reflexivity|vm_compute; discriminate]. Qed.
