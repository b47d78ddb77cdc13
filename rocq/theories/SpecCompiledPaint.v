(** * What the compiled painting functions leave in memory *)
From Verif Require Import Prim Geom Webasm SpecCompiled.

(** The answer of xor_char (src/blit.rs:114-120): a Result of one word, Ok first *)
Definition result_at (m : memory) (a : N) (r : option N) : Prop :=
  match r with Some n => load32 m a = 0 /\ load32 m (a + 4) = n | None => load32 m a = 1 end.
(** [m'] is [m] except between the bounds of [l] *)
Definition only_in (l : list (N * N)) (m m' : memory) : Prop :=
  forall a, Forall (fun x => a < fst x \/ snd x <= a) l -> m' a = m a.
(** The variants of GlyphStyle (src/glyphstyle.rs:13-17), numbered as they are declared *)
Definition style_code (st : glyphstyle) : N := match st with StSmall => 0 | StRegular => 1 | StBold => 2 end.
