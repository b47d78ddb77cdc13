(** * Model of /repo/src/m3hash.rs *)
From Verif Require Import Prim Str.

(** src/m3hash.rs:27-30 (and 55-58): scrambling of one u32 block *)
Definition scramble (k : N) : N :=
  let k := wmul32 k 0xcc9e2d51 in
  let k := rotl32 k 15 in
  wmul32 k 0x1b873593.

(** src/m3hash.rs:27-34 (and 55-62): mix one block into the hash state *)
Definition mix (h k : N) : N :=
  let h := N.lxor h (scramble k) in
  let h := rotl32 h 13 in
  let h := wmul32 h 5 in
  wadd32 h 0xe6546b64.

(** src/m3hash.rs:38-43 (and 65-70): final avalanche *)
Definition avalanche (h : N) : N :=
  let h := N.lxor h (N.shiftr h 16) in
  let h := wmul32 h 0x85ebca6b in
  let h := N.lxor h (N.shiftr h 13) in
  let h := wmul32 h 0xc2b2ae35 in
  N.lxor h (N.shiftr h 16).

(** src/m3hash.rs:22-36: the loop over char_indices.  [bytes] is the value of
    bytes_hashed, initially gc.len().  The u32 counter n never exceeds limit, so
    its increment cannot overflow. *)
Fixpoint gc_loop (cis : list (N * N)) (h n limit bytes : N) : N * N :=
  match cis with
  | [] => (h, bytes)
  | (i, c) :: rest =>
      if limit <=? n then (h, i)
      else gc_loop rest (mix h c) (n + 1) limit bytes
  end.

(** src/m3hash.rs:16-45: grapheme_cluster *)
Definition grapheme_cluster (gc : str) (seed limit : N) : N * N :=
  let '(h, bytes_hashed) := gc_loop (char_indices gc) seed 0 limit (str_len gc) in
  (avalanche (N.lxor h (w32 bytes_hashed)), bytes_hashed).

(** src/m3hash.rs:51-72: frame_buffer *)
Definition m3_frame_buffer (fb : list N) (seed : N) : N :=
  let h := fold_left mix fb seed in
  avalanche (N.lxor h (w32 (N.of_nat (length fb)))).
