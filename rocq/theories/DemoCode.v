(** * The functions of wasm_demo/demo.wasm, as instructions

    Written by tools/gen_wasm.py from the bytes of the file; [PropsCompiled.v] compares them with what
    [WebasmBin.v] decodes from those bytes.  f1 is clear_region, f2 paint_str, f5 grapheme_cluster, f27
    xor_char, f32 nth_word, f0 init, f3 frame_buf_ptr; f6, f28, f33 and f34 are panics; the others look a
    hash up in a table. *)
From Verif Require Import Prim Webasm.

Section Lookup.
Variables n hash off : N.
Definition lookup_1 : list instr :=
  ILGet 1 :: ILGet 2 :: IConst 1 :: IBin ShrU :: ILTee 3 :: ILGet 1 :: IBin Add :: ILTee 7 :: ILGet 7 ::
  IConst 2 :: IBin Shl :: IConst hash :: IBin Add :: ILoad 0 :: ILGet 6 :: IBin GtU :: ISelect :: ILSet 1
  :: ILGet 2 :: ILGet 3 :: IBin Sub :: ILTee 2 :: IConst 1 :: IBin GtU :: IBrIf 0 :: [].
Definition lookup_5 : list instr :=
  ILGet 1 :: IConst 2 :: IBin Shl :: IConst hash :: IBin Add :: ILoad 0 :: ILGet 6 :: IBin Eq :: IBrIf 0 ::
  ILGet 0 :: IConst 0 :: IStore 0 :: IBr 1 :: [].
Definition lookup_6 : list instr :=
  ILGet 1 :: IConst (n - 1) :: IBin GtU :: IBrIf 1 :: ILGet 0 :: IConst 1 :: IStore 0 :: ILGet 0 :: IConst 8 ::
  IBin Add :: ILGet 5 :: IStore 0 :: ILGet 0 :: ILGet 1 :: IConst 2 :: IBin Shl :: IConst off :: IBin Add
  :: ILoad 0 :: IStore 4 :: [].
Definition lookup_4 : list instr :=
  IBlock lookup_5 :: lookup_6.
Definition lookup_7 : list instr :=
  ILGet 4 :: IConst 16 :: IBin Add :: IGSet 0 :: IReturn :: [].
Definition lookup_3 : list instr :=
  IBlock lookup_4 :: lookup_7.
Definition lookup_8 : list instr :=
  ILGet 1 :: IConst n :: ICall 6 :: IUnreachable :: [].
Definition lookup_2 : list instr :=
  IBlock lookup_3 :: lookup_8.
Definition lookup_code : list instr :=
  IGGet 0 :: IConst 16 :: IBin Sub :: ILTee 4 :: IGSet 0 :: ILGet 4 :: IConst 8 :: IBin Add :: ILGet 1 ::
  ILGet 2 :: ILGet 3 :: ICall 5 :: IConst 0 :: ILSet 1 :: IConst n :: ILSet 2 :: ILGet 4 :: ILoad 12 :: ILSet
  5 :: ILGet 4 :: ILoad 8 :: ILSet 6 :: ILoop lookup_1 :: lookup_2.
End Lookup.

Section Pair.
Variables mid hash off : N.
Definition pair_2 : list instr :=
  ILGet 4 :: ILoad 8 :: ILTee 1 :: IConst mid :: IBin GtU :: IConst 2 :: IBin Shl :: ILTee 2 :: IConst
  hash :: IBin Add :: ILoad 0 :: ILGet 1 :: IBin Eq :: IBrIf 0 :: ILGet 0 :: IConst 0 :: IStore 0 :: IBr 1
  :: [].
Definition pair_3 : list instr :=
  ILGet 4 :: ILoad 12 :: ILSet 1 :: ILGet 0 :: IConst 1 :: IStore 0 :: ILGet 0 :: IConst 8 :: IBin Add ::
  ILGet 1 :: IStore 0 :: ILGet 0 :: ILGet 2 :: IConst off :: IBin Add :: ILoad 0 :: IStore 4 :: [].
Definition pair_1 : list instr :=
  IBlock pair_2 :: pair_3.
Definition pair_4 : list instr :=
  ILGet 4 :: IConst 16 :: IBin Add :: IGSet 0 :: [].
Definition pair_code : list instr :=
  IGGet 0 :: IConst 16 :: IBin Sub :: ILTee 4 :: IGSet 0 :: ILGet 4 :: IConst 8 :: IBin Add :: ILGet 1 ::
  ILGet 2 :: ILGet 3 :: ICall 5 :: IBlock pair_1 :: pair_4.
End Pair.

Section Search.
Variables hash : N.
Definition search_loop : list instr :=
  ILGet 10 :: ILGet 4 :: IConst 1 :: IBin ShrU :: ILTee 13 :: ILGet 10 :: IBin Add :: ILTee 11 :: ILGet 11 ::
  IConst 2 :: IBin Shl :: IConst hash :: IBin Add :: ILoad 0 :: ILGet 14 :: IBin GtU :: ISelect :: ILSet 10
  :: ILGet 4 :: ILGet 13 :: IBin Sub :: ILTee 4 :: IConst 1 :: IBin GtU :: IBrIf 0 :: [].
End Search.

Section First.
Variables label : nat.
Definition first_1 : list instr :=
  ILGet 10 :: IConst 255 :: IBin And :: IConst 224 :: IBin GeU :: IBrIf 0 :: ILGet 11 :: ILGet 14 :: IConst 6
  :: IBin Shl :: IBin Or :: ILSet 10 :: IBr 1 :: [].
Definition first_4 : list instr :=
  ILGet 13 :: ILGet 12 :: IBin Ne :: IBrIf 0 :: IConst 0 :: ILSet 13 :: ILGet 12 :: ILSet 15 :: IBr 1 :: [].
Definition first_5 : list instr :=
  ILGet 13 :: IConst 1 :: IBin Add :: ILSet 15 :: ILGet 13 :: ILoad8U 0 :: IConst 63 :: IBin And :: ILSet 13
  :: [].
Definition first_3 : list instr :=
  IBlock first_4 :: first_5.
Definition first_7 : list instr :=
  ILGet 10 :: IConst 255 :: IBin And :: IConst 240 :: IBin GeU :: IBrIf 0 :: ILGet 13 :: ILGet 14 :: IConst 12
  :: IBin Shl :: IBin Or :: ILSet 10 :: IBr 1 :: [].
Definition first_10 : list instr :=
  ILGet 15 :: ILGet 12 :: IBin Ne :: IBrIf 0 :: IConst 0 :: ILSet 10 :: IBr 1 :: [].
Definition first_11 : list instr :=
  ILGet 15 :: ILoad8U 0 :: IConst 63 :: IBin And :: ILSet 10 :: [].
Definition first_9 : list instr :=
  IBlock first_10 :: first_11.
Definition first_12 : list instr :=
  ILGet 13 :: IConst 6 :: IBin Shl :: ILGet 14 :: IConst 18 :: IBin Shl :: IConst 1835008 :: IBin And :: IBin
  Or :: ILGet 10 :: IBin Or :: ILTee 10 :: IConst 1114112 :: IBin Eq :: IBrIf label :: [].
Definition first_8 : list instr :=
  IBlock first_9 :: first_12.
Definition first_6 : list instr :=
  ILGet 13 :: ILGet 11 :: IConst 6 :: IBin Shl :: IBin Or :: ILSet 13 :: IBlock first_7 :: first_8.
Definition first_2 : list instr :=
  IBlock first_3 :: first_6.
Definition first_char : list instr :=
  IBlock first_1 :: first_2.
End First.

Definition f0 : list instr :=
  IGGet 0 :: IConst 48 :: IBin Sub :: ILTee 0 :: IGSet 0 :: ILGet 0 :: IConst 2302102470992 :: IStore64 40 ::
  ILGet 0 :: IConst 0 :: IStore64 32 :: ILGet 0 :: IConst 32 :: IBin Add :: ICall 1 :: ILGet 0 :: IConst 0 ::
  IStore 8 :: ILGet 0 :: IConst 25769803782 :: IStore64 0 :: ILGet 0 :: IConst 2276332667210 :: IStore64 40 ::
  ILGet 0 :: IConst 25769803782 :: IStore64 32 :: ILGet 0 :: IConst 32 :: IBin Add :: ILGet 0 :: IConst 2 ::
  IConst 2636016 :: IConst 40 :: ICall 2 :: ILGet 0 :: IConst 2276332667210 :: IStore64 40 :: ILGet 0 ::
  IConst 25769803782 :: IStore64 32 :: ILGet 0 :: IConst 32 :: IBin Add :: ILGet 0 :: IConst 1 :: IConst
  2636016 :: IConst 40 :: ICall 2 :: ILGet 0 :: IConst 2276332667210 :: IStore64 40 :: ILGet 0 :: IConst
  25769803782 :: IStore64 32 :: ILGet 0 :: IConst 32 :: IBin Add :: ILGet 0 :: IConst 0 :: IConst 2636016 ::
  IConst 40 :: ICall 2 :: ILGet 0 :: IConst 2276332667210 :: IStore64 40 :: ILGet 0 :: IConst 25769803782 ::
  IStore64 32 :: ILGet 0 :: IConst 32 :: IBin Add :: ILGet 0 :: IConst 1 :: IConst 2636056 :: IConst 43 ::
  ICall 2 :: ILGet 0 :: IConst 2276332667210 :: IStore64 40 :: ILGet 0 :: IConst 25769803782 :: IStore64 32 ::
  ILGet 0 :: IConst 32 :: IBin Add :: ILGet 0 :: IConst 1 :: IConst 2636099 :: IConst 32 :: ICall 2 :: ILGet 0
  :: IConst 2276332667210 :: IStore64 40 :: ILGet 0 :: IConst 25769803782 :: IStore64 32 :: ILGet 0 :: IConst
  32 :: IBin Add :: ILGet 0 :: IConst 1 :: IConst 2636131 :: IConst 33 :: ICall 2 :: ILGet 0 :: IConst
  2276332667210 :: IStore64 40 :: ILGet 0 :: IConst 25769803782 :: IStore64 32 :: ILGet 0 :: IConst 32 :: IBin
  Add :: ILGet 0 :: IConst 1 :: IConst 2636164 :: IConst 30 :: ICall 2 :: ILGet 0 :: IConst 2276332667210 ::
  IStore64 40 :: ILGet 0 :: IConst 25769803782 :: IStore64 32 :: ILGet 0 :: IConst 32 :: IBin Add :: ILGet 0
  :: IConst 1 :: IConst 2636194 :: IConst 114 :: ICall 2 :: ILGet 0 :: ILGet 0 :: ILoad 8 :: IStore 24 ::
  ILGet 0 :: ILGet 0 :: ILoad 4 :: ILTee 1 :: IStore 20 :: ILGet 0 :: ILGet 0 :: ILoad 0 :: IStore 16 :: ILGet
  0 :: IConst 32 :: IBin Add :: IConst 12 :: IBin Add :: ILGet 1 :: IConst 12 :: IBin Add :: ILTee 1 :: IConst
  522 :: ILGet 1 :: IConst 522 :: IBin GtU :: ILTee 2 :: ISelect :: IStore 0 :: ILGet 0 :: IConst 290 ::
  IStore 40 :: ILGet 0 :: IConst 522 :: ILGet 1 :: ILGet 2 :: ISelect :: IStore 36 :: ILGet 0 :: IConst 36 ::
  IStore 32 :: ILGet 0 :: IConst 32 :: IBin Add :: ILGet 0 :: IConst 16 :: IBin Add :: IConst 0 :: IConst
  2636194 :: IConst 114 :: ICall 2 :: ILGet 0 :: IConst 2302102470992 :: IStore64 40 :: ILGet 0 :: IConst 0 ::
  IStore64 32 :: ILGet 0 :: IConst 32 :: IBin Add :: ICall 1 :: ILGet 0 :: IConst 0 :: IStore 24 :: ILGet 0 ::
  IConst 25769803782 :: IStore64 16 :: ILGet 0 :: IConst 2276332667210 :: IStore64 40 :: ILGet 0 :: IConst
  25769803782 :: IStore64 32 :: ILGet 0 :: IConst 32 :: IBin Add :: ILGet 0 :: IConst 16 :: IBin Add :: IConst
  1 :: IConst 2636308 :: IConst 73 :: ICall 2 :: ILGet 0 :: IConst 48 :: IBin Add :: IGSet 0 :: [].

Definition f1_7 : list instr :=
  ILGet 3 :: IConst 5895 :: IBin GtU :: IBrIf 2 :: ILGet 0 :: IConst 4294967295 :: IStore 0 :: ILGet 0 ::
  IConst 4 :: IBin Add :: ILSet 0 :: ILGet 3 :: IConst 1 :: IBin Add :: ILSet 3 :: ILGet 13 :: IConst
  4294967295 :: IBin Add :: ILTee 13 :: IEqz :: IBrIf 3 :: IBr 0 :: [].
Definition f1_6 : list instr :=
  ILGet 2 :: IConst 11 :: IBin Mul :: ILTee 12 :: ILGet 4 :: IBin Add :: ILTee 0 :: IConst 5895 :: IBin GtU ::
  IBrIf 0 :: ILGet 0 :: IConst 2 :: IBin Shl :: IConst 2636384 :: IBin Add :: ILTee 0 :: ILGet 0 :: ILoad 0 ::
  ILGet 9 :: IBin Or :: IStore 0 :: ILGet 8 :: ILSet 0 :: ILGet 5 :: ILSet 3 :: ILGet 7 :: ILSet 13 :: ILGet
  11 :: IBrIf 2 :: ILoop f1_7 :: [].
Definition f1_8 : list instr :=
  ILGet 0 :: IConst 5896 :: ICall 6 :: IUnreachable :: [].
Definition f1_5 : list instr :=
  IBlock f1_6 :: f1_8.
Definition f1_9 : list instr :=
  ILGet 3 :: IConst 5896 :: ICall 6 :: IUnreachable :: [].
Definition f1_4 : list instr :=
  IBlock f1_5 :: f1_9.
Definition f1_11 : list instr :=
  ILGet 4 :: ILGet 6 :: IBin GeU :: IBrIf 0 :: ILGet 12 :: ILGet 6 :: IBin Add :: ILTee 0 :: IConst 5895 ::
  IBin GtU :: IBrIf 3 :: ILGet 0 :: IConst 2 :: IBin Shl :: IConst 2636384 :: IBin Add :: ILTee 0 :: ILGet 0
  :: ILoad 0 :: ILGet 10 :: IBin Or :: IStore 0 :: [].
Definition f1_12 : list instr :=
  ILGet 8 :: IConst 44 :: IBin Add :: ILSet 8 :: ILGet 5 :: IConst 11 :: IBin Add :: ILSet 5 :: ILGet 2 ::
  IConst 1 :: IBin Add :: ILTee 2 :: ILGet 1 :: IBin Ne :: IBrIf 0 :: [].
Definition f1_10 : list instr :=
  IBlock f1_11 :: f1_12.
Definition f1_3 : list instr :=
  IBlock f1_4 :: f1_10.
Definition f1_2 : list instr :=
  ILGet 0 :: IConst 12 :: IBin Add :: ILoad 0 :: ILTee 1 :: IConst 536 :: IBin GtU :: IBrIf 0 :: ILGet 0 ::
  ILoad 4 :: ILTee 2 :: ILGet 1 :: IBin GeU :: IBrIf 0 :: ILGet 0 :: ILoad 8 :: ILTee 3 :: IConst 336 :: IBin
  GtU :: IBrIf 0 :: ILGet 0 :: ILoad 0 :: ILTee 0 :: ILGet 3 :: IBin GeU :: IBrIf 0 :: ILGet 0 :: IConst 5 ::
  IBin ShrU :: ILTee 4 :: ILGet 2 :: IConst 11 :: IBin Mul :: IBin Add :: IConst 1 :: IBin Add :: ILSet 5 ::
  ILGet 4 :: IConst 4294967295 :: IBin Xor :: ILGet 3 :: IConst 5 :: IBin ShrU :: ILTee 6 :: IBin Add :: ILSet
  7 :: ILGet 2 :: IConst 44 :: IBin Mul :: ILGet 4 :: IConst 2 :: IBin Shl :: IBin Add :: IConst 2636388 ::
  IBin Add :: ILSet 8 :: IConst 4294967295 :: ILGet 0 :: IConst 31 :: IBin And :: IBin Shl :: ILSet 9 ::
  IConst 4294967295 :: IConst 0 :: ILGet 3 :: IBin Sub :: IConst 31 :: IBin And :: IBin ShrU :: ILSet 10 ::
  ILGet 4 :: IConst 1 :: IBin Add :: ILGet 6 :: IBin GeU :: ILSet 11 :: ILoop f1_3 :: [].
Definition f1_13 : list instr :=
  IReturn :: [].
Definition f1_1 : list instr :=
  IBlock f1_2 :: f1_13.
Definition f1_14 : list instr :=
  ILGet 0 :: IConst 5896 :: ICall 6 :: IUnreachable :: [].
Definition f1 : list instr :=
  IBlock f1_1 :: f1_14.

Definition f2_3 : list instr :=
  ILGet 2 :: IConst 255 :: IBin And :: IBrTable [2; 1; 0]%nat 2 :: [].
Definition f2_4 : list instr :=
  IConst 1 :: ILSet 6 :: IBr 1 :: [].
Definition f2_2 : list instr :=
  IBlock f2_3 :: f2_4.
Definition f2_5 : list instr :=
  IConst 2 :: ILSet 6 :: [].
Definition f2_1 : list instr :=
  IBlock f2_2 :: f2_5.
Definition f2_24 : list instr :=
  ILGet 3 :: ILoad8S 0 :: ILTee 9 :: IConst 4294967295 :: IBin LeS :: IBrIf 0 :: ILGet 9 :: IConst 255 :: IBin
  And :: ILSet 9 :: IBr 1 :: [].
Definition f2_26 : list instr :=
  ILGet 2 :: IConst 1 :: IBin Eq :: IBrIf 0 :: ILGet 3 :: IConst 2 :: IBin Add :: ILSet 11 :: ILGet 3 ::
  ILoad8U 1 :: IConst 63 :: IBin And :: ILSet 10 :: [].
Definition f2_28 : list instr :=
  ILGet 9 :: IConst 255 :: IBin And :: ILTee 9 :: IConst 223 :: IBin GtU :: IBrIf 0 :: ILGet 10 :: ILGet 12 ::
  IConst 6 :: IBin Shl :: IBin Or :: ILSet 9 :: IBr 1 :: [].
Definition f2_31 : list instr :=
  ILGet 11 :: ILGet 8 :: IBin Ne :: IBrIf 0 :: IConst 0 :: ILSet 11 :: ILGet 8 :: ILSet 13 :: IBr 1 :: [].
Definition f2_32 : list instr :=
  ILGet 11 :: IConst 1 :: IBin Add :: ILSet 13 :: ILGet 11 :: ILoad8U 0 :: IConst 63 :: IBin And :: ILSet 11
  :: [].
Definition f2_30 : list instr :=
  IBlock f2_31 :: f2_32.
Definition f2_34 : list instr :=
  ILGet 9 :: IConst 240 :: IBin GeU :: IBrIf 0 :: ILGet 11 :: ILGet 12 :: IConst 12 :: IBin Shl :: IBin Or ::
  ILSet 9 :: IBr 1 :: [].
Definition f2_37 : list instr :=
  ILGet 13 :: ILGet 8 :: IBin Ne :: IBrIf 0 :: IConst 0 :: ILSet 9 :: IBr 1 :: [].
Definition f2_38 : list instr :=
  ILGet 13 :: ILoad8U 0 :: IConst 63 :: IBin And :: ILSet 9 :: [].
Definition f2_36 : list instr :=
  IBlock f2_37 :: f2_38.
Definition f2_39 : list instr :=
  ILGet 11 :: IConst 6 :: IBin Shl :: ILGet 12 :: IConst 18 :: IBin Shl :: IConst 1835008 :: IBin And :: IBin
  Or :: ILGet 9 :: IBin Or :: ILTee 9 :: IConst 1114112 :: IBin Eq :: IBrIf 1 :: [].
Definition f2_35 : list instr :=
  IBlock f2_36 :: f2_39.
Definition f2_33 : list instr :=
  ILGet 11 :: ILGet 10 :: IConst 6 :: IBin Shl :: IBin Or :: ILSet 11 :: IBlock f2_34 :: f2_35.
Definition f2_29 : list instr :=
  IBlock f2_30 :: f2_33.
Definition f2_27 : list instr :=
  ILGet 9 :: IConst 31 :: IBin And :: ILSet 12 :: IBlock f2_28 :: f2_29.
Definition f2_25 : list instr :=
  IConst 0 :: ILSet 10 :: ILGet 8 :: ILSet 11 :: IBlock f2_26 :: f2_27.
Definition f2_23 : list instr :=
  IBlock f2_24 :: f2_25.
Definition f2_40 : list instr :=
  ILGet 9 :: IConst 10 :: IBin Eq :: IBrIf 1 :: [].
Definition f2_22 : list instr :=
  IBlock f2_23 :: f2_40.
Definition f2_41 : list instr :=
  ILGet 5 :: IConst 32 :: IBin Add :: IConst 8 :: IBin Add :: ILTee 9 :: ILGet 0 :: IConst 8 :: IBin Add ::
  ILTee 11 :: ILoad64 0 :: IStore64 0 :: ILGet 5 :: ILGet 0 :: ILoad64 0 :: IStore64 32 :: ILGet 5 :: IConst
  24 :: IBin Add :: ILGet 5 :: IConst 32 :: IBin Add :: ILGet 1 :: ILGet 3 :: ILGet 2 :: IConst 0 :: ICall 27
  :: ILGet 5 :: ILoad 24 :: IEqz :: IBrIf 1 :: ILGet 9 :: ILGet 11 :: ILoad64 0 :: IStore64 0 :: ILGet 5 ::
  ILGet 0 :: ILoad64 0 :: IStore64 32 :: ILGet 5 :: IConst 16 :: IBin Add :: ILGet 5 :: IConst 32 :: IBin Add
  :: ILGet 1 :: ILGet 3 :: ILGet 2 :: ILGet 6 :: ICall 27 :: ILGet 5 :: ILoad 16 :: IEqz :: IBrIf 2 :: ILGet 9
  :: ILGet 11 :: ILoad64 0 :: IStore64 0 :: ILGet 5 :: ILGet 0 :: ILoad64 0 :: IStore64 32 :: ILGet 5 ::
  IConst 8 :: IBin Add :: ILGet 5 :: IConst 32 :: IBin Add :: ILGet 1 :: ILGet 3 :: ILGet 2 :: IConst 4 ::
  ICall 27 :: ILGet 5 :: ILoad 8 :: IEqz :: IBrIf 3 :: ILGet 9 :: ILGet 11 :: ILoad64 0 :: IStore64 0 :: ILGet
  5 :: ILGet 0 :: ILoad64 0 :: IStore64 32 :: ILGet 5 :: ILGet 5 :: IConst 32 :: IBin Add :: ILGet 1 :: IConst
  1078272 :: IConst 3 :: ILGet 6 :: ICall 27 :: ILGet 5 :: ILoad 0 :: IBrIf 7 :: ILGet 3 :: ILoad8S 0 :: ILTee
  9 :: IConst 4294967295 :: IBin GtS :: IBrIf 6 :: ILGet 9 :: IConst 255 :: IBin And :: ILSet 9 :: ILGet 2 ::
  IConst 1 :: IBin Ne :: IBrIf 4 :: IConst 0 :: ILSet 10 :: ILGet 8 :: ILSet 11 :: IBr 5 :: [].
Definition f2_21 : list instr :=
  IBlock f2_22 :: f2_41.
Definition f2_43 : list instr :=
  ILGet 1 :: ILoad 8 :: ILTee 9 :: IConst 23 :: IBin GtU :: IBrIf 0 :: IConst 24 :: ILSet 9 :: ILGet 1 ::
  IConst 24 :: IStore 8 :: [].
Definition f2_45 : list instr :=
  ILGet 2 :: IConst 1 :: IBin Eq :: IBrIf 0 :: ILGet 7 :: ILoad8S 0 :: IConst 4294967231 :: IBin LeS :: IBrIf
  10 :: [].
Definition f2_46 : list instr :=
  ILGet 2 :: IConst 4294967295 :: IBin Add :: ILSet 2 :: ILGet 7 :: ILSet 3 :: IBr 6 :: [].
Definition f2_44 : list instr :=
  ILGet 1 :: IConst 0 :: IStore 8 :: ILGet 1 :: ILGet 9 :: ILGet 1 :: ILoad 4 :: IBin Add :: IConst 1 :: IBin
  Add :: IStore 4 :: IBlock f2_45 :: f2_46.
Definition f2_42 : list instr :=
  ILGet 1 :: ILGet 0 :: ILoad 0 :: IStore 0 :: IBlock f2_43 :: f2_44.
Definition f2_20 : list instr :=
  IBlock f2_21 :: f2_42.
Definition f2_48 : list instr :=
  ILGet 5 :: ILoad 28 :: ILTee 9 :: IEqz :: IBrIf 0 :: ILGet 2 :: ILGet 9 :: IBin Eq :: IBrIf 0 :: ILGet 2 ::
  ILGet 9 :: IBin LeU :: IBrIf 10 :: ILGet 3 :: ILGet 9 :: IBin Add :: ILoad8S 0 :: IConst 4294967231 :: IBin
  LeS :: IBrIf 10 :: [].
Definition f2_49 : list instr :=
  ILGet 3 :: ILGet 9 :: IBin Add :: ILSet 3 :: ILGet 2 :: ILGet 9 :: IBin Sub :: ILSet 2 :: IBr 5 :: [].
Definition f2_47 : list instr :=
  IBlock f2_48 :: f2_49.
Definition f2_19 : list instr :=
  IBlock f2_20 :: f2_47.
Definition f2_51 : list instr :=
  ILGet 5 :: ILoad 20 :: ILTee 9 :: IEqz :: IBrIf 0 :: ILGet 2 :: ILGet 9 :: IBin Eq :: IBrIf 0 :: ILGet 2 ::
  ILGet 9 :: IBin LeU :: IBrIf 10 :: ILGet 3 :: ILGet 9 :: IBin Add :: ILoad8S 0 :: IConst 4294967231 :: IBin
  LeS :: IBrIf 10 :: [].
Definition f2_52 : list instr :=
  ILGet 3 :: ILGet 9 :: IBin Add :: ILSet 3 :: ILGet 2 :: ILGet 9 :: IBin Sub :: ILSet 2 :: IBr 4 :: [].
Definition f2_50 : list instr :=
  IBlock f2_51 :: f2_52.
Definition f2_18 : list instr :=
  IBlock f2_19 :: f2_50.
Definition f2_54 : list instr :=
  ILGet 5 :: ILoad 12 :: ILTee 9 :: IEqz :: IBrIf 0 :: ILGet 2 :: ILGet 9 :: IBin Eq :: IBrIf 0 :: ILGet 2 ::
  ILGet 9 :: IBin LeU :: IBrIf 10 :: ILGet 3 :: ILGet 9 :: IBin Add :: ILoad8S 0 :: IConst 4294967231 :: IBin
  LeS :: IBrIf 10 :: [].
Definition f2_55 : list instr :=
  ILGet 3 :: ILGet 9 :: IBin Add :: ILSet 3 :: ILGet 2 :: ILGet 9 :: IBin Sub :: ILSet 2 :: IBr 3 :: [].
Definition f2_53 : list instr :=
  IBlock f2_54 :: f2_55.
Definition f2_17 : list instr :=
  IBlock f2_18 :: f2_53.
Definition f2_56 : list instr :=
  ILGet 3 :: ILoad8U 1 :: IConst 63 :: IBin And :: ILSet 10 :: ILGet 3 :: IConst 2 :: IBin Add :: ILTee 7 ::
  ILSet 11 :: [].
Definition f2_16 : list instr :=
  IBlock f2_17 :: f2_56.
Definition f2_59 : list instr :=
  ILGet 11 :: ILGet 8 :: IBin Ne :: IBrIf 0 :: IConst 0 :: ILSet 12 :: ILGet 8 :: ILSet 11 :: IBr 1 :: [].
Definition f2_60 : list instr :=
  ILGet 11 :: ILoad8U 0 :: IConst 63 :: IBin And :: ILSet 12 :: ILGet 11 :: IConst 1 :: IBin Add :: ILTee 7 ::
  ILSet 11 :: [].
Definition f2_58 : list instr :=
  IBlock f2_59 :: f2_60.
Definition f2_63 : list instr :=
  ILGet 11 :: ILGet 8 :: IBin Ne :: IBrIf 0 :: IConst 0 :: ILSet 11 :: IBr 1 :: [].
Definition f2_64 : list instr :=
  ILGet 11 :: IConst 1 :: IBin Add :: ILSet 7 :: ILGet 11 :: ILoad8U 0 :: IConst 63 :: IBin And :: ILSet 11 ::
  [].
Definition f2_62 : list instr :=
  IBlock f2_63 :: f2_64.
Definition f2_65 : list instr :=
  ILGet 10 :: IConst 12 :: IBin Shl :: ILGet 9 :: IConst 18 :: IBin Shl :: IConst 1835008 :: IBin And :: IBin
  Or :: ILGet 12 :: IConst 6 :: IBin Shl :: IBin Or :: ILGet 11 :: IBin Or :: IConst 1114112 :: IBin Eq ::
  IBrIf 1 :: [].
Definition f2_61 : list instr :=
  ILGet 9 :: IConst 240 :: IBin LtU :: IBrIf 0 :: IBlock f2_62 :: f2_65.
Definition f2_57 : list instr :=
  ILGet 9 :: IConst 224 :: IBin LtU :: IBrIf 0 :: IBlock f2_58 :: f2_61.
Definition f2_15 : list instr :=
  IBlock f2_16 :: f2_57.
Definition f2_69 : list instr :=
  ILGet 7 :: IConst 1 :: IBin Add :: ILGet 8 :: IBin Ne :: IBrIf 0 :: IConst 0 :: ILSet 10 :: ILGet 8 :: ILSet
  11 :: IBr 1 :: [].
Definition f2_70 : list instr :=
  ILGet 7 :: IConst 2 :: IBin Add :: ILSet 11 :: ILGet 7 :: ILoad8U 1 :: IConst 63 :: IBin And :: ILSet 10 ::
  [].
Definition f2_68 : list instr :=
  IBlock f2_69 :: f2_70.
Definition f2_73 : list instr :=
  ILGet 11 :: ILGet 8 :: IBin Ne :: IBrIf 0 :: IConst 0 :: ILSet 11 :: ILGet 8 :: ILSet 12 :: IBr 1 :: [].
Definition f2_74 : list instr :=
  ILGet 11 :: IConst 1 :: IBin Add :: ILSet 12 :: ILGet 11 :: ILoad8U 0 :: IConst 63 :: IBin And :: ILSet 11
  :: [].
Definition f2_72 : list instr :=
  IBlock f2_73 :: f2_74.
Definition f2_77 : list instr :=
  ILGet 12 :: ILGet 8 :: IBin Ne :: IBrIf 0 :: IConst 0 :: ILSet 8 :: IBr 1 :: [].
Definition f2_78 : list instr :=
  ILGet 12 :: ILoad8U 0 :: IConst 63 :: IBin And :: ILSet 8 :: [].
Definition f2_76 : list instr :=
  IBlock f2_77 :: f2_78.
Definition f2_79 : list instr :=
  ILGet 10 :: IConst 12 :: IBin Shl :: ILGet 9 :: IConst 18 :: IBin Shl :: IConst 1835008 :: IBin And :: IBin
  Or :: ILGet 11 :: IConst 6 :: IBin Shl :: IBin Or :: ILGet 8 :: IBin Or :: IConst 1114112 :: IBin Eq ::
  IBrIf 1 :: [].
Definition f2_75 : list instr :=
  ILGet 9 :: IConst 240 :: IBin LtU :: IBrIf 0 :: IBlock f2_76 :: f2_79.
Definition f2_71 : list instr :=
  ILGet 9 :: IConst 224 :: IBin LtU :: IBrIf 0 :: IBlock f2_72 :: f2_75.
Definition f2_67 : list instr :=
  ILGet 7 :: ILoad8S 0 :: ILTee 9 :: IConst 4294967295 :: IBin GtS :: IBrIf 0 :: ILGet 9 :: IConst 255 :: IBin
  And :: ILSet 9 :: IBlock f2_68 :: f2_71.
Definition f2_81 : list instr :=
  ILGet 7 :: ILGet 3 :: IBin Sub :: ILTee 9 :: IEqz :: IBrIf 0 :: ILGet 2 :: ILGet 9 :: IBin Eq :: IBrIf 0 ::
  ILGet 2 :: ILGet 9 :: IBin LeU :: IBrIf 8 :: ILGet 3 :: ILGet 9 :: IBin Add :: ILoad8S 0 :: IConst
  4294967231 :: IBin LeS :: IBrIf 8 :: [].
Definition f2_82 : list instr :=
  ILGet 3 :: ILGet 9 :: IBin Add :: ILSet 3 :: ILGet 2 :: ILGet 9 :: IBin Sub :: ILSet 2 :: [].
Definition f2_80 : list instr :=
  IBlock f2_81 :: f2_82.
Definition f2_66 : list instr :=
  ILGet 8 :: ILGet 7 :: IBin Eq :: IBrIf 0 :: IBlock f2_67 :: f2_80.
Definition f2_14 : list instr :=
  IBlock f2_15 :: f2_66.
Definition f2_83 : list instr :=
  ILGet 4 :: IConst 4294967295 :: IBin Add :: ILTee 4 :: IBrIf 0 :: [].
Definition f2_13 : list instr :=
  ILGet 2 :: IEqz :: IBrIf 1 :: ILGet 3 :: IConst 1 :: IBin Add :: ILSet 7 :: ILGet 3 :: ILGet 2 :: IBin Add
  :: ILSet 8 :: IBlock f2_14 :: f2_83.
Definition f2_12 : list instr :=
  ILGet 4 :: IEqz :: IBrIf 0 :: ILGet 4 :: ILSet 2 :: ILoop f2_13 :: [].
Definition f2_84 : list instr :=
  ILGet 5 :: IConst 48 :: IBin Add :: IGSet 0 :: IReturn :: [].
Definition f2_11 : list instr :=
  IBlock f2_12 :: f2_84.
Definition f2_85 : list instr :=
  ILGet 3 :: ILGet 2 :: IConst 1 :: ILGet 2 :: ICall 28 :: IUnreachable :: [].
Definition f2_10 : list instr :=
  IBlock f2_11 :: f2_85.
Definition f2_86 : list instr :=
  ILGet 3 :: ILGet 2 :: ILGet 9 :: ILGet 2 :: ICall 28 :: IUnreachable :: [].
Definition f2_9 : list instr :=
  IBlock f2_10 :: f2_86.
Definition f2_87 : list instr :=
  ILGet 3 :: ILGet 2 :: ILGet 9 :: ILGet 2 :: ICall 28 :: IUnreachable :: [].
Definition f2_8 : list instr :=
  IBlock f2_9 :: f2_87.
Definition f2_88 : list instr :=
  ILGet 3 :: ILGet 2 :: ILGet 9 :: ILGet 2 :: ICall 28 :: IUnreachable :: [].
Definition f2_7 : list instr :=
  IBlock f2_8 :: f2_88.
Definition f2_89 : list instr :=
  ILGet 3 :: ILGet 2 :: ILGet 9 :: ILGet 2 :: ICall 28 :: IUnreachable :: [].
Definition f2_6 : list instr :=
  IBlock f2_7 :: f2_89.
Definition f2 : list instr :=
  IGGet 0 :: IConst 48 :: IBin Sub :: ILTee 5 :: IGSet 0 :: IConst 3 :: ILSet 6 :: IBlock f2_1 :: f2_6.

Definition f3 : list instr :=
  IConst 2636384 :: [].

Definition f5_2 : list instr :=
  ILGet 2 :: IBrIf 0 :: IConst 0 :: ILSet 4 :: IBr 1 :: [].
Definition f5_9 : list instr :=
  ILGet 3 :: ILGet 5 :: IBin Ne :: IBrIf 0 :: IConst 0 :: ILSet 10 :: ILGet 5 :: ILSet 1 :: IBr 1 :: [].
Definition f5_10 : list instr :=
  ILGet 1 :: ILoad8U 1 :: IConst 63 :: IBin And :: ILSet 10 :: ILGet 1 :: IConst 2 :: IBin Add :: ILTee 3 ::
  ILSet 1 :: [].
Definition f5_8 : list instr :=
  IBlock f5_9 :: f5_10.
Definition f5_12 : list instr :=
  ILGet 9 :: IConst 255 :: IBin And :: ILTee 9 :: IConst 223 :: IBin GtU :: IBrIf 0 :: ILGet 10 :: ILGet 11 ::
  IConst 6 :: IBin Shl :: IBin Or :: ILSet 9 :: IBr 2 :: [].
Definition f5_15 : list instr :=
  ILGet 1 :: ILGet 5 :: IBin Ne :: IBrIf 0 :: IConst 0 :: ILSet 12 :: ILGet 5 :: ILSet 13 :: IBr 1 :: [].
Definition f5_16 : list instr :=
  ILGet 1 :: ILoad8U 0 :: IConst 63 :: IBin And :: ILSet 12 :: ILGet 1 :: IConst 1 :: IBin Add :: ILTee 3 ::
  ILSet 13 :: [].
Definition f5_14 : list instr :=
  IBlock f5_15 :: f5_16.
Definition f5_18 : list instr :=
  ILGet 9 :: IConst 240 :: IBin GeU :: IBrIf 0 :: ILGet 10 :: ILGet 11 :: IConst 12 :: IBin Shl :: IBin Or ::
  ILSet 9 :: IBr 2 :: [].
Definition f5_21 : list instr :=
  ILGet 13 :: ILGet 5 :: IBin Ne :: IBrIf 0 :: IConst 0 :: ILSet 9 :: ILGet 3 :: ILSet 1 :: IBr 1 :: [].
Definition f5_22 : list instr :=
  ILGet 13 :: IConst 1 :: IBin Add :: ILSet 1 :: ILGet 13 :: ILoad8U 0 :: IConst 63 :: IBin And :: ILSet 9 ::
  [].
Definition f5_20 : list instr :=
  IBlock f5_21 :: f5_22.
Definition f5_23 : list instr :=
  ILGet 10 :: IConst 6 :: IBin Shl :: ILGet 11 :: IConst 18 :: IBin Shl :: IConst 1835008 :: IBin And :: IBin
  Or :: ILGet 9 :: IBin Or :: ILTee 9 :: IConst 1114112 :: IBin Ne :: IBrIf 2 :: IBr 4 :: [].
Definition f5_19 : list instr :=
  IBlock f5_20 :: f5_23.
Definition f5_17 : list instr :=
  ILGet 12 :: ILGet 10 :: IConst 6 :: IBin Shl :: IBin Or :: ILSet 10 :: IBlock f5_18 :: f5_19.
Definition f5_13 : list instr :=
  IBlock f5_14 :: f5_17.
Definition f5_11 : list instr :=
  ILGet 9 :: IConst 31 :: IBin And :: ILSet 11 :: IBlock f5_12 :: f5_13.
Definition f5_7 : list instr :=
  ILGet 1 :: ILoad8S 0 :: ILTee 9 :: IConst 4294967295 :: IBin GtS :: IBrIf 0 :: IBlock f5_8 :: f5_11.
Definition f5_24 : list instr :=
  ILGet 9 :: IConst 255 :: IBin And :: ILSet 9 :: [].
Definition f5_6 : list instr :=
  IBlock f5_7 :: f5_24.
Definition f5_25 : list instr :=
  ILGet 3 :: ILSet 1 :: [].
Definition f5_5 : list instr :=
  IBlock f5_6 :: f5_25.
Definition f5_27 : list instr :=
  ILGet 6 :: IConst 4294967295 :: IBin Add :: ILTee 6 :: IBrIf 0 :: ILGet 7 :: ILSet 2 :: IBr 2 :: [].
Definition f5_28 : list instr :=
  ILGet 7 :: ILGet 8 :: IBin Sub :: ILGet 1 :: IBin Add :: ILSet 7 :: ILGet 9 :: IConst 3432918353 :: IBin Mul
  :: IConst 15 :: IBin Rotl :: IConst 461845907 :: IBin Mul :: ILGet 4 :: IBin Xor :: IConst 13 :: IBin Rotl
  :: IConst 5 :: IBin Mul :: IConst 3864292196 :: IBin Add :: ILSet 4 :: ILGet 1 :: ILSet 8 :: ILGet 5 ::
  ILGet 1 :: IBin Ne :: IBrIf 0 :: [].
Definition f5_26 : list instr :=
  IBlock f5_27 :: f5_28.
Definition f5_4 : list instr :=
  ILGet 1 :: IConst 1 :: IBin Add :: ILSet 3 :: IBlock f5_5 :: f5_26.
Definition f5_3 : list instr :=
  ILGet 1 :: ILGet 2 :: IBin Add :: ILSet 5 :: ILGet 3 :: IConst 1 :: IBin Add :: ILSet 6 :: IConst 0 :: ILSet
  4 :: IConst 0 :: ILSet 7 :: ILGet 1 :: ILSet 8 :: ILoop f5_4 :: [].
Definition f5_1 : list instr :=
  IBlock f5_2 :: f5_3.
Definition f5_29 : list instr :=
  ILGet 0 :: ILGet 2 :: IStore 4 :: ILGet 0 :: ILGet 2 :: ILGet 4 :: IBin Xor :: ILTee 1 :: IConst 16 :: IBin
  ShrU :: ILGet 1 :: IBin Xor :: IConst 2246822507 :: IBin Mul :: ILTee 1 :: IConst 13 :: IBin ShrU :: ILGet 1
  :: IBin Xor :: IConst 3266489909 :: IBin Mul :: ILTee 1 :: IConst 16 :: IBin ShrU :: ILGet 1 :: IBin Xor ::
  IStore 0 :: [].
Definition f5 : list instr :=
  IBlock f5_1 :: f5_29.

Definition f6 : list instr :=
  ICall 34 :: IUnreachable :: [].

Definition f27_56 : list instr :=
  ILGet 5 :: IConst 255 :: IBin And :: IBrTable [1; 2; 3; 4; 0]%nat 1 :: [].
Definition f27_58 : list instr :=
  ILGet 3 :: ILoad8S 0 :: ILTee 10 :: IConst 4294967295 :: IBin LeS :: IBrIf 0 :: ILGet 10 :: IConst 255 ::
  IBin And :: ILSet 10 :: IBr 38 :: [].
Definition f27_60 : list instr :=
  ILGet 4 :: IConst 1 :: IBin Eq :: IBrIf 0 :: ILGet 3 :: IConst 2 :: IBin Add :: ILSet 13 :: ILGet 3 ::
  ILoad8U 1 :: IConst 63 :: IBin And :: ILSet 11 :: [].
Definition f27_62 : list instr :=
  ILGet 10 :: IConst 255 :: IBin And :: IConst 223 :: IBin GtU :: IBrIf 0 :: ILGet 11 :: ILGet 14 :: IConst 6
  :: IBin Shl :: IBin Or :: ILSet 10 :: IBr 38 :: [].
Definition f27_65 : list instr :=
  ILGet 13 :: ILGet 12 :: IBin Ne :: IBrIf 0 :: IConst 0 :: ILSet 13 :: ILGet 12 :: ILSet 15 :: IBr 1 :: [].
Definition f27_66 : list instr :=
  ILGet 13 :: IConst 1 :: IBin Add :: ILSet 15 :: ILGet 13 :: ILoad8U 0 :: IConst 63 :: IBin And :: ILSet 13
  :: [].
Definition f27_64 : list instr :=
  IBlock f27_65 :: f27_66.
Definition f27_68 : list instr :=
  ILGet 10 :: IConst 255 :: IBin And :: IConst 240 :: IBin GeU :: IBrIf 0 :: ILGet 13 :: ILGet 14 :: IConst 12
  :: IBin Shl :: IBin Or :: ILSet 10 :: IBr 38 :: [].
Definition f27_71 : list instr :=
  ILGet 15 :: ILGet 12 :: IBin Ne :: IBrIf 0 :: IConst 0 :: ILSet 10 :: IBr 1 :: [].
Definition f27_72 : list instr :=
  ILGet 15 :: ILoad8U 0 :: IConst 63 :: IBin And :: ILSet 10 :: [].
Definition f27_70 : list instr :=
  IBlock f27_71 :: f27_72.
Definition f27_73 : list instr :=
  ILGet 13 :: IConst 6 :: IBin Shl :: ILGet 14 :: IConst 18 :: IBin Shl :: IConst 1835008 :: IBin And :: IBin
  Or :: ILGet 10 :: IBin Or :: ILTee 10 :: IConst 1114112 :: IBin Ne :: IBrIf 37 :: IBr 51 :: [].
Definition f27_69 : list instr :=
  IBlock f27_70 :: f27_73.
Definition f27_67 : list instr :=
  ILGet 13 :: ILGet 11 :: IConst 6 :: IBin Shl :: IBin Or :: ILSet 13 :: IBlock f27_68 :: f27_69.
Definition f27_63 : list instr :=
  IBlock f27_64 :: f27_67.
Definition f27_61 : list instr :=
  ILGet 10 :: IConst 31 :: IBin And :: ILSet 14 :: IBlock f27_62 :: f27_63.
Definition f27_59 : list instr :=
  IConst 0 :: ILSet 11 :: ILGet 3 :: ILGet 4 :: IBin Add :: ILTee 12 :: ILSet 13 :: IBlock f27_60 :: f27_61.
Definition f27_57 : list instr :=
  IBlock f27_58 :: f27_59.
Definition f27_55 : list instr :=
  IBlock f27_56 :: f27_57.
Definition f27_101 : list instr :=
  ILGet 4 :: IConst 1 :: IBin Eq :: IBrIf 0 :: ILGet 3 :: IConst 2 :: IBin Add :: ILSet 13 :: ILGet 3 ::
  ILoad8U 1 :: IConst 63 :: IBin And :: ILSet 11 :: [].
Definition f27_104 : list instr :=
  ILGet 10 :: IConst 2 :: IBin Shl :: IConst 1048672 :: IBin Add :: ILoad 0 :: ILGet 14 :: IBin Ne :: IBrIf 76
  :: ILGet 10 :: IConst 57 :: IBin GeU :: IBrIf 39 :: ILGet 10 :: IConst 2 :: IBin Shl :: IConst 1048900 ::
  IBin Add :: ILoad 0 :: ILSet 14 :: IBr 23 :: [].
Definition f27_103 : list instr :=
  ILGet 10 :: IConst 128 :: IBin LtU :: IBrIf 0 :: ILGet 10 :: IConst 256 :: IBin LtU :: IBrIf 1 :: ILGet 10
  :: IConst 4294959104 :: IBin Add :: IConst 112 :: IBin LtU :: IBrIf 2 :: ILGet 10 :: IConst 4294958848 ::
  IBin Add :: IConst 80 :: IBin LtU :: IBrIf 3 :: ILGet 10 :: IConst 4294958704 :: IBin Add :: IConst 112 ::
  IBin LtU :: IBrIf 4 :: ILGet 10 :: IConst 2096896 :: IBin And :: ILTee 13 :: IConst 8960 :: IBin Eq :: IBrIf
  5 :: ILGet 10 :: IConst 4294957984 :: IBin Add :: IConst 160 :: IBin LtU :: IBrIf 6 :: ILGet 10 :: IConst
  4294957664 :: IBin Add :: IConst 96 :: IBin LtU :: IBrIf 7 :: ILGet 13 :: IConst 9728 :: IBin Eq :: IBrIf 8
  :: ILGet 10 :: IConst 4294957312 :: IBin Add :: IConst 192 :: IBin LtU :: IBrIf 9 :: ILGet 10 :: IConst
  2097024 :: IBin And :: ILTee 11 :: IConst 10496 :: IBin Eq :: IBrIf 10 :: ILGet 13 :: IConst 11008 :: IBin
  Eq :: IBrIf 11 :: ILGet 10 :: IConst 2097088 :: IBin And :: IConst 12288 :: IBin Eq :: IBrIf 12 :: ILGet 13
  :: IConst 12800 :: IBin Eq :: IBrIf 13 :: ILGet 10 :: IConst 4294909952 :: IBin Add :: IConst 6400 :: IBin
  LtU :: IBrIf 14 :: ILGet 10 :: IConst 4294840320 :: IBin Add :: IConst 48 :: IBin LtU :: IBrIf 15 :: ILGet
  10 :: IConst 4294840160 :: IBin Add :: IConst 96 :: IBin LtU :: IBrIf 16 :: ILGet 13 :: IConst 127232 ::
  IBin Eq :: IBrIf 17 :: ILGet 13 :: IConst 127488 :: IBin Eq :: IBrIf 18 :: ILGet 10 :: IConst 4294839552 ::
  IBin Add :: IConst 768 :: IBin LtU :: IBrIf 19 :: ILGet 10 :: IConst 4294838784 :: IBin Add :: IConst 80 ::
  IBin LtU :: IBrIf 20 :: ILGet 11 :: IConst 128640 :: IBin Eq :: IBrIf 21 :: ILGet 11 :: IConst 128896 ::
  IBin Eq :: IBrIf 22 :: ILGet 13 :: IConst 129280 :: IBin Eq :: IBrIf 24 :: ILGet 10 :: IConst 4294837648 ::
  IBin Add :: IConst 144 :: IBin GeU :: IBrIf 76 :: ILGet 6 :: IConst 24 :: IBin Add :: ILGet 3 :: ILGet 4 ::
  IConst 1 :: ICall 5 :: IConst 0 :: ILSet 10 :: IConst 57 :: ILSet 4 :: ILGet 6 :: ILoad 28 :: ILSet 3 ::
  ILGet 6 :: ILoad 24 :: ILSet 14 :: ILoop (search_loop 1048672) :: f27_104.
Definition f27_102 : list instr :=
  ILGet 10 :: IConst 31 :: IBin And :: ILSet 14 :: IBlock (first_char 77) :: f27_103.
Definition f27_100 : list instr :=
  ILGet 3 :: ILoad8S 0 :: ILTee 10 :: IConst 4294967295 :: IBin GtS :: IBrIf 0 :: IConst 0 :: ILSet 11 ::
  ILGet 3 :: ILGet 4 :: IBin Add :: ILTee 12 :: ILSet 13 :: IBlock f27_101 :: f27_102.
Definition f27_106 : list instr :=
  ILGet 6 :: ILoad 320 :: IConst 1 :: IBin Eq :: IBrIf 0 :: ILGet 6 :: IConst 336 :: IBin Add :: ILGet 3 ::
  ILGet 4 :: IConst 2 :: ICall 4 :: IConst 0 :: IConst 5 :: ILGet 6 :: ILoad 336 :: IConst 1 :: IBin Eq ::
  ISelect :: ILSet 12 :: ILGet 6 :: IConst 344 :: IBin Add :: ILoad 0 :: ILSet 3 :: ILGet 6 :: ILoad 340 ::
  ILSet 14 :: IBr 52 :: [].
Definition f27_107 : list instr :=
  ILGet 6 :: IConst 328 :: IBin Add :: ILoad 0 :: ILSet 3 :: IBr 50 :: [].
Definition f27_105 : list instr :=
  ILGet 6 :: IConst 320 :: IBin Add :: ILGet 3 :: ILGet 4 :: IConst 3 :: ICall 4 :: IBlock f27_106 :: f27_107.
Definition f27_99 : list instr :=
  IBlock f27_100 :: f27_105.
Definition f27_109 : list instr :=
  ILGet 6 :: ILoad 320 :: IConst 1 :: IBin Eq :: IBrIf 0 :: ILGet 6 :: IConst 336 :: IBin Add :: ILGet 3 ::
  ILGet 4 :: IConst 1 :: ICall 7 :: IConst 0 :: IConst 5 :: ILGet 6 :: ILoad 336 :: IConst 1 :: IBin Eq ::
  ISelect :: ILSet 12 :: ILGet 6 :: IConst 344 :: IBin Add :: ILoad 0 :: ILSet 3 :: ILGet 6 :: ILoad 340 ::
  ILSet 14 :: IBr 51 :: [].
Definition f27_110 : list instr :=
  ILGet 6 :: IConst 328 :: IBin Add :: ILoad 0 :: ILSet 3 :: IBr 49 :: [].
Definition f27_108 : list instr :=
  ILGet 6 :: IConst 320 :: IBin Add :: ILGet 3 :: ILGet 4 :: IConst 2 :: ICall 7 :: IBlock f27_109 :: f27_110.
Definition f27_98 : list instr :=
  IBlock f27_99 :: f27_108.
Definition f27_112 : list instr :=
  ILGet 6 :: ILoad 320 :: IConst 1 :: IBin Eq :: IBrIf 0 :: ILGet 6 :: IConst 336 :: IBin Add :: ILGet 3 ::
  ILGet 4 :: IConst 1 :: ICall 8 :: IConst 0 :: IConst 5 :: ILGet 6 :: ILoad 336 :: IConst 1 :: IBin Eq ::
  ISelect :: ILSet 12 :: ILGet 6 :: IConst 344 :: IBin Add :: ILoad 0 :: ILSet 3 :: ILGet 6 :: ILoad 340 ::
  ILSet 14 :: IBr 50 :: [].
Definition f27_113 : list instr :=
  ILGet 6 :: IConst 328 :: IBin Add :: ILoad 0 :: ILSet 3 :: IBr 48 :: [].
Definition f27_111 : list instr :=
  ILGet 6 :: IConst 320 :: IBin Add :: ILGet 3 :: ILGet 4 :: IConst 2 :: ICall 8 :: IBlock f27_112 :: f27_113.
Definition f27_97 : list instr :=
  IBlock f27_98 :: f27_111.
Definition f27_115 : list instr :=
  ILGet 6 :: ILoad 320 :: IConst 1 :: IBin Eq :: IBrIf 0 :: ILGet 6 :: IConst 336 :: IBin Add :: ILGet 3 ::
  ILGet 4 :: IConst 1 :: ICall 9 :: IConst 0 :: IConst 5 :: ILGet 6 :: ILoad 336 :: IConst 1 :: IBin Eq ::
  ISelect :: ILSet 12 :: ILGet 6 :: IConst 344 :: IBin Add :: ILoad 0 :: ILSet 3 :: ILGet 6 :: ILoad 340 ::
  ILSet 14 :: IBr 49 :: [].
Definition f27_116 : list instr :=
  ILGet 6 :: IConst 328 :: IBin Add :: ILoad 0 :: ILSet 3 :: IBr 47 :: [].
Definition f27_114 : list instr :=
  ILGet 6 :: IConst 320 :: IBin Add :: ILGet 3 :: ILGet 4 :: IConst 2 :: ICall 9 :: IBlock f27_115 :: f27_116.
Definition f27_96 : list instr :=
  IBlock f27_97 :: f27_114.
Definition f27_118 : list instr :=
  ILGet 6 :: ILoad 320 :: IConst 1 :: IBin Eq :: IBrIf 0 :: ILGet 6 :: IConst 336 :: IBin Add :: ILGet 3 ::
  ILGet 4 :: IConst 1 :: ICall 10 :: IConst 0 :: IConst 5 :: ILGet 6 :: ILoad 336 :: IConst 1 :: IBin Eq ::
  ISelect :: ILSet 12 :: ILGet 6 :: IConst 344 :: IBin Add :: ILoad 0 :: ILSet 3 :: ILGet 6 :: ILoad 340 ::
  ILSet 14 :: IBr 48 :: [].
Definition f27_119 : list instr :=
  ILGet 6 :: IConst 328 :: IBin Add :: ILoad 0 :: ILSet 3 :: IBr 46 :: [].
Definition f27_117 : list instr :=
  ILGet 6 :: IConst 320 :: IBin Add :: ILGet 3 :: ILGet 4 :: IConst 2 :: ICall 10 :: IBlock f27_118 :: f27_119.
Definition f27_95 : list instr :=
  IBlock f27_96 :: f27_117.
Definition f27_121 : list instr :=
  ILGet 6 :: ILoad 320 :: IConst 1 :: IBin Eq :: IBrIf 0 :: ILGet 6 :: IConst 336 :: IBin Add :: ILGet 3 ::
  ILGet 4 :: IConst 1 :: ICall 11 :: IConst 0 :: IConst 5 :: ILGet 6 :: ILoad 336 :: IConst 1 :: IBin Eq ::
  ISelect :: ILSet 12 :: ILGet 6 :: IConst 344 :: IBin Add :: ILoad 0 :: ILSet 3 :: ILGet 6 :: ILoad 340 ::
  ILSet 14 :: IBr 47 :: [].
Definition f27_122 : list instr :=
  ILGet 6 :: IConst 328 :: IBin Add :: ILoad 0 :: ILSet 3 :: IBr 45 :: [].
Definition f27_120 : list instr :=
  ILGet 6 :: IConst 320 :: IBin Add :: ILGet 3 :: ILGet 4 :: IConst 2 :: ICall 11 :: IBlock f27_121 :: f27_122.
Definition f27_94 : list instr :=
  IBlock f27_95 :: f27_120.
Definition f27_124 : list instr :=
  ILGet 6 :: ILoad 320 :: IConst 1 :: IBin Eq :: IBrIf 0 :: ILGet 6 :: IConst 336 :: IBin Add :: ILGet 3 ::
  ILGet 4 :: IConst 1 :: ICall 12 :: IConst 0 :: IConst 5 :: ILGet 6 :: ILoad 336 :: IConst 1 :: IBin Eq ::
  ISelect :: ILSet 12 :: ILGet 6 :: IConst 344 :: IBin Add :: ILoad 0 :: ILSet 3 :: ILGet 6 :: ILoad 340 ::
  ILSet 14 :: IBr 46 :: [].
Definition f27_125 : list instr :=
  ILGet 6 :: IConst 328 :: IBin Add :: ILoad 0 :: ILSet 3 :: IBr 44 :: [].
Definition f27_123 : list instr :=
  ILGet 6 :: IConst 320 :: IBin Add :: ILGet 3 :: ILGet 4 :: IConst 2 :: ICall 12 :: IBlock f27_124 :: f27_125.
Definition f27_93 : list instr :=
  IBlock f27_94 :: f27_123.
Definition f27_127 : list instr :=
  ILGet 6 :: ILoad 320 :: IConst 1 :: IBin Eq :: IBrIf 0 :: ILGet 6 :: IConst 336 :: IBin Add :: ILGet 3 ::
  ILGet 4 :: IConst 1 :: ICall 13 :: IConst 0 :: IConst 5 :: ILGet 6 :: ILoad 336 :: IConst 1 :: IBin Eq ::
  ISelect :: ILSet 12 :: ILGet 6 :: IConst 344 :: IBin Add :: ILoad 0 :: ILSet 3 :: ILGet 6 :: ILoad 340 ::
  ILSet 14 :: IBr 45 :: [].
Definition f27_128 : list instr :=
  ILGet 6 :: IConst 328 :: IBin Add :: ILoad 0 :: ILSet 3 :: IBr 43 :: [].
Definition f27_126 : list instr :=
  ILGet 6 :: IConst 320 :: IBin Add :: ILGet 3 :: ILGet 4 :: IConst 2 :: ICall 13 :: IBlock f27_127 :: f27_128.
Definition f27_92 : list instr :=
  IBlock f27_93 :: f27_126.
Definition f27_131 : list instr :=
  ILGet 6 :: ILoad 304 :: IConst 1 :: IBin Eq :: IBrIf 0 :: ILGet 6 :: IConst 320 :: IBin Add :: ILGet 3 ::
  ILGet 4 :: IConst 2 :: ICall 14 :: ILGet 6 :: ILoad 320 :: IConst 1 :: IBin Eq :: IBrIf 1 :: ILGet 6 ::
  IConst 336 :: IBin Add :: ILGet 3 :: ILGet 4 :: IConst 1 :: ICall 14 :: IConst 0 :: IConst 5 :: ILGet 6 ::
  ILoad 336 :: IConst 1 :: IBin Eq :: ISelect :: ILSet 12 :: ILGet 6 :: IConst 344 :: IBin Add :: ILoad 0 ::
  ILSet 3 :: ILGet 6 :: ILoad 340 :: ILSet 14 :: IBr 45 :: [].
Definition f27_132 : list instr :=
  ILGet 6 :: IConst 312 :: IBin Add :: ILoad 0 :: ILSet 3 :: IBr 42 :: [].
Definition f27_130 : list instr :=
  IBlock f27_131 :: f27_132.
Definition f27_133 : list instr :=
  ILGet 6 :: IConst 328 :: IBin Add :: ILoad 0 :: ILSet 3 :: IBr 42 :: [].
Definition f27_129 : list instr :=
  ILGet 6 :: IConst 304 :: IBin Add :: ILGet 3 :: ILGet 4 :: IConst 5 :: ICall 14 :: IBlock f27_130 :: f27_133.
Definition f27_91 : list instr :=
  IBlock f27_92 :: f27_129.
Definition f27_135 : list instr :=
  ILGet 6 :: ILoad 320 :: IConst 1 :: IBin Eq :: IBrIf 0 :: ILGet 6 :: IConst 336 :: IBin Add :: ILGet 3 ::
  ILGet 4 :: IConst 1 :: ICall 15 :: IConst 0 :: IConst 5 :: ILGet 6 :: ILoad 336 :: IConst 1 :: IBin Eq ::
  ISelect :: ILSet 12 :: ILGet 6 :: IConst 344 :: IBin Add :: ILoad 0 :: ILSet 3 :: ILGet 6 :: ILoad 340 ::
  ILSet 14 :: IBr 43 :: [].
Definition f27_136 : list instr :=
  ILGet 6 :: IConst 328 :: IBin Add :: ILoad 0 :: ILSet 3 :: IBr 41 :: [].
Definition f27_134 : list instr :=
  ILGet 6 :: IConst 320 :: IBin Add :: ILGet 3 :: ILGet 4 :: IConst 2 :: ICall 15 :: IBlock f27_135 :: f27_136.
Definition f27_90 : list instr :=
  IBlock f27_91 :: f27_134.
Definition f27_138 : list instr :=
  ILGet 6 :: ILoad 320 :: IConst 1 :: IBin Eq :: IBrIf 0 :: ILGet 6 :: IConst 336 :: IBin Add :: ILGet 3 ::
  ILGet 4 :: IConst 1 :: ICall 16 :: IConst 0 :: IConst 5 :: ILGet 6 :: ILoad 336 :: IConst 1 :: IBin Eq ::
  ISelect :: ILSet 12 :: ILGet 6 :: IConst 344 :: IBin Add :: ILoad 0 :: ILSet 3 :: ILGet 6 :: ILoad 340 ::
  ILSet 14 :: IBr 42 :: [].
Definition f27_139 : list instr :=
  ILGet 6 :: IConst 328 :: IBin Add :: ILoad 0 :: ILSet 3 :: IBr 40 :: [].
Definition f27_137 : list instr :=
  ILGet 6 :: IConst 320 :: IBin Add :: ILGet 3 :: ILGet 4 :: IConst 2 :: ICall 16 :: IBlock f27_138 :: f27_139.
Definition f27_89 : list instr :=
  IBlock f27_90 :: f27_137.
Definition f27_141 : list instr :=
  ILGet 6 :: ILoad 320 :: IConst 1 :: IBin Eq :: IBrIf 0 :: ILGet 6 :: IConst 336 :: IBin Add :: ILGet 3 ::
  ILGet 4 :: IConst 1 :: ICall 17 :: IConst 0 :: IConst 5 :: ILGet 6 :: ILoad 336 :: IConst 1 :: IBin Eq ::
  ISelect :: ILSet 12 :: ILGet 6 :: IConst 344 :: IBin Add :: ILoad 0 :: ILSet 3 :: ILGet 6 :: ILoad 340 ::
  ILSet 14 :: IBr 41 :: [].
Definition f27_142 : list instr :=
  ILGet 6 :: IConst 328 :: IBin Add :: ILoad 0 :: ILSet 3 :: IBr 39 :: [].
Definition f27_140 : list instr :=
  ILGet 6 :: IConst 320 :: IBin Add :: ILGet 3 :: ILGet 4 :: IConst 2 :: ICall 17 :: IBlock f27_141 :: f27_142.
Definition f27_88 : list instr :=
  IBlock f27_89 :: f27_140.
Definition f27_144 : list instr :=
  ILGet 6 :: ILoad 320 :: IConst 1 :: IBin Eq :: IBrIf 0 :: ILGet 6 :: IConst 336 :: IBin Add :: ILGet 3 ::
  ILGet 4 :: IConst 1 :: ICall 18 :: IConst 0 :: IConst 5 :: ILGet 6 :: ILoad 336 :: IConst 1 :: IBin Eq ::
  ISelect :: ILSet 12 :: ILGet 6 :: IConst 344 :: IBin Add :: ILoad 0 :: ILSet 3 :: ILGet 6 :: ILoad 340 ::
  ILSet 14 :: IBr 40 :: [].
Definition f27_145 : list instr :=
  ILGet 6 :: IConst 328 :: IBin Add :: ILoad 0 :: ILSet 3 :: IBr 38 :: [].
Definition f27_143 : list instr :=
  ILGet 6 :: IConst 320 :: IBin Add :: ILGet 3 :: ILGet 4 :: IConst 2 :: ICall 18 :: IBlock f27_144 :: f27_145.
Definition f27_87 : list instr :=
  IBlock f27_88 :: f27_143.
Definition f27_147 : list instr :=
  ILGet 6 :: ILoad 320 :: IConst 1 :: IBin Eq :: IBrIf 0 :: ILGet 6 :: IConst 336 :: IBin Add :: ILGet 3 ::
  ILGet 4 :: IConst 1 :: ICall 19 :: IConst 0 :: IConst 5 :: ILGet 6 :: ILoad 336 :: IConst 1 :: IBin Eq ::
  ISelect :: ILSet 12 :: ILGet 6 :: IConst 344 :: IBin Add :: ILoad 0 :: ILSet 3 :: ILGet 6 :: ILoad 340 ::
  ILSet 14 :: IBr 39 :: [].
Definition f27_148 : list instr :=
  ILGet 6 :: IConst 328 :: IBin Add :: ILoad 0 :: ILSet 3 :: IBr 37 :: [].
Definition f27_146 : list instr :=
  ILGet 6 :: IConst 320 :: IBin Add :: ILGet 3 :: ILGet 4 :: IConst 2 :: ICall 19 :: IBlock f27_147 :: f27_148.
Definition f27_86 : list instr :=
  IBlock f27_87 :: f27_146.
Definition f27_149 : list instr :=
  IConst 1 :: ILSet 10 :: ILGet 6 :: IConst 8 :: IBin Add :: ILGet 3 :: ILGet 4 :: IConst 1 :: ICall 5 ::
  ILGet 6 :: ILoad 8 :: IConst 3517333811 :: IBin Ne :: IBrIf 64 :: IConst 0 :: ILSet 12 :: IConst 91196 ::
  ILSet 14 :: ILGet 6 :: ILoad 12 :: ILSet 3 :: IBr 46 :: [].
Definition f27_85 : list instr :=
  IBlock f27_86 :: f27_149.
Definition f27_151 : list instr :=
  ILGet 6 :: ILoad 320 :: IConst 1 :: IBin Eq :: IBrIf 0 :: ILGet 6 :: IConst 336 :: IBin Add :: ILGet 3 ::
  ILGet 4 :: IConst 1 :: ICall 20 :: IConst 0 :: IConst 5 :: ILGet 6 :: ILoad 336 :: IConst 1 :: IBin Eq ::
  ISelect :: ILSet 12 :: ILGet 6 :: IConst 344 :: IBin Add :: ILoad 0 :: ILSet 3 :: ILGet 6 :: ILoad 340 ::
  ILSet 14 :: IBr 37 :: [].
Definition f27_152 : list instr :=
  ILGet 6 :: IConst 328 :: IBin Add :: ILoad 0 :: ILSet 3 :: IBr 35 :: [].
Definition f27_150 : list instr :=
  ILGet 6 :: IConst 320 :: IBin Add :: ILGet 3 :: ILGet 4 :: IConst 2 :: ICall 20 :: IBlock f27_151 :: f27_152.
Definition f27_84 : list instr :=
  IBlock f27_85 :: f27_150.
Definition f27_153 : list instr :=
  IConst 1 :: ILSet 10 :: ILGet 6 :: IConst 16 :: IBin Add :: ILGet 3 :: ILGet 4 :: IConst 1 :: ICall 5 ::
  ILGet 6 :: ILoad 16 :: IConst 2010979671 :: IBin Ne :: IBrIf 62 :: IConst 0 :: ILSet 12 :: IConst 24 ::
  ILSet 14 :: ILGet 6 :: ILoad 20 :: ILSet 3 :: IBr 44 :: [].
Definition f27_83 : list instr :=
  IBlock f27_84 :: f27_153.
Definition f27_155 : list instr :=
  ILGet 6 :: ILoad 320 :: IConst 1 :: IBin Eq :: IBrIf 0 :: ILGet 6 :: IConst 336 :: IBin Add :: ILGet 3 ::
  ILGet 4 :: IConst 1 :: ICall 21 :: IConst 0 :: IConst 5 :: ILGet 6 :: ILoad 336 :: IConst 1 :: IBin Eq ::
  ISelect :: ILSet 12 :: ILGet 6 :: IConst 344 :: IBin Add :: ILoad 0 :: ILSet 3 :: ILGet 6 :: ILoad 340 ::
  ILSet 14 :: IBr 35 :: [].
Definition f27_156 : list instr :=
  ILGet 6 :: IConst 328 :: IBin Add :: ILoad 0 :: ILSet 3 :: IBr 33 :: [].
Definition f27_154 : list instr :=
  ILGet 6 :: IConst 320 :: IBin Add :: ILGet 3 :: ILGet 4 :: IConst 2 :: ICall 21 :: IBlock f27_155 :: f27_156.
Definition f27_82 : list instr :=
  IBlock f27_83 :: f27_154.
Definition f27_158 : list instr :=
  ILGet 6 :: ILoad 320 :: IConst 1 :: IBin Eq :: IBrIf 0 :: ILGet 6 :: IConst 336 :: IBin Add :: ILGet 3 ::
  ILGet 4 :: IConst 1 :: ICall 22 :: IConst 0 :: IConst 5 :: ILGet 6 :: ILoad 336 :: IConst 1 :: IBin Eq ::
  ISelect :: ILSet 12 :: ILGet 6 :: IConst 344 :: IBin Add :: ILoad 0 :: ILSet 3 :: ILGet 6 :: ILoad 340 ::
  ILSet 14 :: IBr 34 :: [].
Definition f27_159 : list instr :=
  ILGet 6 :: IConst 328 :: IBin Add :: ILoad 0 :: ILSet 3 :: IBr 32 :: [].
Definition f27_157 : list instr :=
  ILGet 6 :: IConst 320 :: IBin Add :: ILGet 3 :: ILGet 4 :: IConst 2 :: ICall 22 :: IBlock f27_158 :: f27_159.
Definition f27_81 : list instr :=
  IBlock f27_82 :: f27_157.
Definition f27_165 : list instr :=
  ILGet 6 :: ILoad 256 :: IConst 1 :: IBin Eq :: IBrIf 0 :: ILGet 6 :: IConst 272 :: IBin Add :: ILGet 3 ::
  ILGet 4 :: IConst 5 :: ICall 23 :: ILGet 6 :: ILoad 272 :: IConst 1 :: IBin Eq :: IBrIf 1 :: ILGet 6 ::
  IConst 288 :: IBin Add :: ILGet 3 :: ILGet 4 :: IConst 4 :: ICall 23 :: ILGet 6 :: ILoad 288 :: IConst 1 ::
  IBin Eq :: IBrIf 2 :: ILGet 6 :: IConst 304 :: IBin Add :: ILGet 3 :: ILGet 4 :: IConst 3 :: ICall 23 ::
  ILGet 6 :: ILoad 304 :: IConst 1 :: IBin Eq :: IBrIf 3 :: ILGet 6 :: IConst 320 :: IBin Add :: ILGet 3 ::
  ILGet 4 :: IConst 2 :: ICall 23 :: ILGet 6 :: ILoad 320 :: IConst 1 :: IBin Eq :: IBrIf 4 :: ILGet 6 ::
  IConst 336 :: IBin Add :: ILGet 3 :: ILGet 4 :: IConst 1 :: ICall 23 :: IConst 0 :: IConst 5 :: ILGet 6 ::
  ILoad 336 :: IConst 1 :: IBin Eq :: ISelect :: ILSet 12 :: ILGet 6 :: IConst 344 :: IBin Add :: ILoad 0 ::
  ILSet 3 :: ILGet 6 :: ILoad 340 :: ILSet 14 :: IBr 37 :: [].
Definition f27_166 : list instr :=
  ILGet 6 :: IConst 264 :: IBin Add :: ILoad 0 :: ILSet 3 :: IBr 33 :: [].
Definition f27_164 : list instr :=
  IBlock f27_165 :: f27_166.
Definition f27_167 : list instr :=
  ILGet 6 :: IConst 280 :: IBin Add :: ILoad 0 :: ILSet 3 :: IBr 31 :: [].
Definition f27_163 : list instr :=
  IBlock f27_164 :: f27_167.
Definition f27_168 : list instr :=
  ILGet 6 :: IConst 296 :: IBin Add :: ILoad 0 :: ILSet 3 :: IBr 29 :: [].
Definition f27_162 : list instr :=
  IBlock f27_163 :: f27_168.
Definition f27_169 : list instr :=
  ILGet 6 :: IConst 312 :: IBin Add :: ILoad 0 :: ILSet 3 :: IBr 31 :: [].
Definition f27_161 : list instr :=
  IBlock f27_162 :: f27_169.
Definition f27_170 : list instr :=
  ILGet 6 :: IConst 328 :: IBin Add :: ILoad 0 :: ILSet 3 :: IBr 31 :: [].
Definition f27_160 : list instr :=
  ILGet 6 :: IConst 224 :: IBin Add :: ILGet 3 :: ILGet 4 :: IConst 8 :: ICall 23 :: ILGet 6 :: ILoad 224 ::
  IConst 1 :: IBin Eq :: IBrIf 5 :: ILGet 6 :: IConst 240 :: IBin Add :: ILGet 3 :: ILGet 4 :: IConst 7 ::
  ICall 23 :: ILGet 6 :: ILoad 240 :: IConst 1 :: IBin Eq :: IBrIf 9 :: ILGet 6 :: IConst 256 :: IBin Add ::
  ILGet 3 :: ILGet 4 :: IConst 6 :: ICall 23 :: IBlock f27_161 :: f27_170.
Definition f27_80 : list instr :=
  IBlock f27_81 :: f27_160.
Definition f27_172 : list instr :=
  ILGet 6 :: ILoad 320 :: IConst 1 :: IBin Eq :: IBrIf 0 :: ILGet 6 :: IConst 336 :: IBin Add :: ILGet 3 ::
  ILGet 4 :: IConst 1 :: ICall 24 :: IConst 0 :: IConst 5 :: ILGet 6 :: ILoad 336 :: IConst 1 :: IBin Eq ::
  ISelect :: ILSet 12 :: ILGet 6 :: IConst 344 :: IBin Add :: ILoad 0 :: ILSet 3 :: ILGet 6 :: ILoad 340 ::
  ILSet 14 :: IBr 32 :: [].
Definition f27_173 : list instr :=
  ILGet 6 :: IConst 328 :: IBin Add :: ILoad 0 :: ILSet 3 :: IBr 30 :: [].
Definition f27_171 : list instr :=
  ILGet 6 :: IConst 288 :: IBin Add :: ILGet 3 :: ILGet 4 :: IConst 5 :: ICall 24 :: ILGet 6 :: ILoad 288 ::
  IConst 1 :: IBin Eq :: IBrIf 9 :: ILGet 6 :: IConst 304 :: IBin Add :: ILGet 3 :: ILGet 4 :: IConst 4 ::
  ICall 24 :: ILGet 6 :: ILoad 304 :: IConst 1 :: IBin Eq :: IBrIf 10 :: ILGet 6 :: IConst 320 :: IBin Add ::
  ILGet 3 :: ILGet 4 :: IConst 2 :: ICall 24 :: IBlock f27_172 :: f27_173.
Definition f27_79 : list instr :=
  IBlock f27_80 :: f27_171.
Definition f27_175 : list instr :=
  ILGet 6 :: ILoad 320 :: IConst 1 :: IBin Eq :: IBrIf 0 :: ILGet 6 :: IConst 336 :: IBin Add :: ILGet 3 ::
  ILGet 4 :: IConst 1 :: ICall 25 :: IConst 0 :: IConst 5 :: ILGet 6 :: ILoad 336 :: IConst 1 :: IBin Eq ::
  ISelect :: ILSet 12 :: ILGet 6 :: IConst 344 :: IBin Add :: ILoad 0 :: ILSet 3 :: ILGet 6 :: ILoad 340 ::
  ILSet 14 :: IBr 31 :: [].
Definition f27_176 : list instr :=
  ILGet 6 :: IConst 328 :: IBin Add :: ILoad 0 :: ILSet 3 :: IBr 29 :: [].
Definition f27_174 : list instr :=
  ILGet 6 :: IConst 288 :: IBin Add :: ILGet 3 :: ILGet 4 :: IConst 5 :: ICall 25 :: ILGet 6 :: ILoad 288 ::
  IConst 1 :: IBin Eq :: IBrIf 10 :: ILGet 6 :: IConst 304 :: IBin Add :: ILGet 3 :: ILGet 4 :: IConst 4 ::
  ICall 25 :: ILGet 6 :: ILoad 304 :: IConst 1 :: IBin Eq :: IBrIf 11 :: ILGet 6 :: IConst 320 :: IBin Add ::
  ILGet 3 :: ILGet 4 :: IConst 2 :: ICall 25 :: IBlock f27_175 :: f27_176.
Definition f27_78 : list instr :=
  IBlock f27_79 :: f27_174.
Definition f27_178 : list instr :=
  ILGet 10 :: IConst 2 :: IBin Shl :: IConst 1048576 :: IBin Add :: ILoad 0 :: ILGet 14 :: IBin Ne :: IBrIf 53
  :: ILGet 10 :: IConst 12 :: IBin GeU :: IBrIf 11 :: ILGet 10 :: IConst 2 :: IBin Shl :: IConst 1048624 ::
  IBin Add :: ILoad 0 :: ILSet 14 :: [].
Definition f27_177 : list instr :=
  ILGet 6 :: IConst 32 :: IBin Add :: ILGet 3 :: ILGet 4 :: IConst 1 :: ICall 5 :: IConst 0 :: ILSet 10 ::
  IConst 12 :: ILSet 4 :: ILGet 6 :: ILoad 36 :: ILSet 3 :: ILGet 6 :: ILoad 32 :: ILSet 14 :: ILoop
  (search_loop 1048576) :: f27_178.
Definition f27_77 : list instr :=
  IBlock f27_78 :: f27_177.
Definition f27_179 : list instr :=
  IConst 0 :: ILSet 12 :: IBr 36 :: [].
Definition f27_76 : list instr :=
  IBlock f27_77 :: f27_179.
Definition f27_181 : list instr :=
  ILGet 6 :: ILoad 320 :: IConst 1 :: IBin Eq :: IBrIf 0 :: ILGet 6 :: IConst 336 :: IBin Add :: ILGet 3 ::
  ILGet 4 :: IConst 1 :: ICall 26 :: IConst 0 :: IConst 5 :: ILGet 6 :: ILoad 336 :: IConst 1 :: IBin Eq ::
  ISelect :: ILSet 12 :: ILGet 6 :: IConst 344 :: IBin Add :: ILoad 0 :: ILSet 3 :: ILGet 6 :: ILoad 340 ::
  ILSet 14 :: IBr 28 :: [].
Definition f27_182 : list instr :=
  ILGet 6 :: IConst 328 :: IBin Add :: ILoad 0 :: ILSet 3 :: IBr 26 :: [].
Definition f27_180 : list instr :=
  ILGet 6 :: IConst 256 :: IBin Add :: ILGet 3 :: ILGet 4 :: IConst 7 :: ICall 26 :: ILGet 6 :: ILoad 256 ::
  IConst 1 :: IBin Eq :: IBrIf 10 :: ILGet 6 :: IConst 272 :: IBin Add :: ILGet 3 :: ILGet 4 :: IConst 5 ::
  ICall 26 :: ILGet 6 :: ILoad 272 :: IConst 1 :: IBin Eq :: IBrIf 11 :: ILGet 6 :: IConst 288 :: IBin Add ::
  ILGet 3 :: ILGet 4 :: IConst 4 :: ICall 26 :: ILGet 6 :: ILoad 288 :: IConst 1 :: IBin Eq :: IBrIf 12 ::
  ILGet 6 :: IConst 304 :: IBin Add :: ILGet 3 :: ILGet 4 :: IConst 3 :: ICall 26 :: ILGet 6 :: ILoad 304 ::
  IConst 1 :: IBin Eq :: IBrIf 13 :: ILGet 6 :: IConst 320 :: IBin Add :: ILGet 3 :: ILGet 4 :: IConst 2 ::
  ICall 26 :: IBlock f27_181 :: f27_182.
Definition f27_75 : list instr :=
  IBlock f27_76 :: f27_180.
Definition f27_183 : list instr :=
  ILGet 6 :: IConst 224 :: IBin Add :: IConst 8 :: IBin Add :: ILoad 0 :: ILSet 3 :: IConst 0 :: ILSet 12 ::
  ILGet 6 :: ILoad 228 :: ILSet 14 :: IBr 26 :: [].
Definition f27_74 : list instr :=
  IBlock f27_75 :: f27_183.
Definition f27_54 : list instr :=
  IBlock f27_55 :: f27_74.
Definition f27_193 : list instr :=
  ILGet 4 :: IConst 1 :: IBin Eq :: IBrIf 0 :: ILGet 3 :: IConst 2 :: IBin Add :: ILSet 13 :: ILGet 3 ::
  ILoad8U 1 :: IConst 63 :: IBin And :: ILSet 11 :: [].
Definition f27_195 : list instr :=
  ILGet 10 :: IConst 128 :: IBin LtU :: IBrIf 0 :: ILGet 10 :: IConst 256 :: IBin LtU :: IBrIf 1 :: ILGet 10
  :: IConst 384 :: IBin LtU :: IBrIf 2 :: ILGet 10 :: IConst 4294959104 :: IBin Add :: IConst 112 :: IBin LtU
  :: IBrIf 3 :: ILGet 10 :: IConst 4294958944 :: IBin Add :: IConst 48 :: IBin LtU :: IBrIf 4 :: ILGet 10 ::
  IConst 2097136 :: IBin And :: IConst 65520 :: IBin Ne :: IBrIf 57 :: IConst 1 :: ILSet 12 :: ILGet 6 ::
  IConst 72 :: IBin Add :: ILGet 3 :: ILGet 4 :: IConst 1 :: ICall 5 :: ILGet 6 :: ILoad 72 :: IConst
  1487264309 :: IBin Eq :: IBrIf 5 :: IBr 27 :: [].
Definition f27_194 : list instr :=
  ILGet 10 :: IConst 31 :: IBin And :: ILSet 14 :: IBlock (first_char 58) :: f27_195.
Definition f27_192 : list instr :=
  ILGet 3 :: ILoad8S 0 :: ILTee 10 :: IConst 4294967295 :: IBin GtS :: IBrIf 0 :: IConst 0 :: ILSet 11 ::
  ILGet 3 :: ILGet 4 :: IBin Add :: ILTee 12 :: ILSet 13 :: IBlock f27_193 :: f27_194.
Definition f27_196 : list instr :=
  ILGet 6 :: IConst 320 :: IBin Add :: ILGet 3 :: ILGet 4 :: IConst 2 :: ICall 29 :: ILGet 6 :: ILoad 320 ::
  IConst 1 :: IBin Eq :: IBrIf 5 :: ILGet 6 :: IConst 336 :: IBin Add :: ILGet 3 :: ILGet 4 :: IConst 1 ::
  ICall 29 :: ILGet 6 :: ILoad 336 :: IConst 1 :: IBin Ne :: IBrIf 56 :: ILGet 6 :: IConst 344 :: IBin Add ::
  ILoad 0 :: ILSet 3 :: ILGet 6 :: ILoad 340 :: ILSet 14 :: IBr 6 :: [].
Definition f27_191 : list instr :=
  IBlock f27_192 :: f27_196.
Definition f27_198 : list instr :=
  ILGet 10 :: IConst 2 :: IBin Shl :: IConst 1147348 :: IBin Add :: ILoad 0 :: ILGet 14 :: IBin Ne :: IBrIf 55
  :: ILGet 10 :: IConst 96 :: IBin GeU :: IBrIf 19 :: ILGet 10 :: IConst 2 :: IBin Shl :: IConst 1145292 ::
  IBin Add :: ILoad 0 :: ILSet 14 :: IBr 5 :: [].
Definition f27_197 : list instr :=
  ILGet 6 :: IConst 40 :: IBin Add :: ILGet 3 :: ILGet 4 :: IConst 1 :: ICall 5 :: IConst 0 :: ILSet 10 ::
  IConst 96 :: ILSet 4 :: ILGet 6 :: ILoad 44 :: ILSet 3 :: ILGet 6 :: ILoad 40 :: ILSet 14 :: ILoop
  (search_loop 1147348) :: f27_198.
Definition f27_190 : list instr :=
  IBlock f27_191 :: f27_197.
Definition f27_199 : list instr :=
  IConst 1 :: ILSet 10 :: ILGet 6 :: IConst 48 :: IBin Add :: ILGet 3 :: ILGet 4 :: IConst 1 :: ICall 5 ::
  ILGet 6 :: ILoad 48 :: ILTee 4 :: IConst 2355157551 :: IBin GtU :: IConst 2 :: IBin Shl :: ILTee 13 ::
  IConst 1148116 :: IBin Add :: ILoad 0 :: ILGet 4 :: IBin Ne :: IBrIf 57 :: ILGet 6 :: ILoad 52 :: ILSet 3 ::
  ILGet 13 :: IConst 1145676 :: IBin Add :: ILoad 0 :: ILSet 14 :: IBr 4 :: [].
Definition f27_189 : list instr :=
  IBlock f27_190 :: f27_199.
Definition f27_201 : list instr :=
  ILGet 10 :: IConst 2 :: IBin Shl :: IConst 1148132 :: IBin Add :: ILoad 0 :: ILGet 14 :: IBin Ne :: IBrIf 53
  :: ILGet 10 :: IConst 11 :: IBin GeU :: IBrIf 18 :: ILGet 10 :: IConst 2 :: IBin Shl :: IConst 1145684 ::
  IBin Add :: ILoad 0 :: ILSet 14 :: IBr 3 :: [].
Definition f27_200 : list instr :=
  ILGet 6 :: IConst 56 :: IBin Add :: ILGet 3 :: ILGet 4 :: IConst 1 :: ICall 5 :: IConst 0 :: ILSet 10 ::
  IConst 11 :: ILSet 4 :: ILGet 6 :: ILoad 60 :: ILSet 3 :: ILGet 6 :: ILoad 56 :: ILSet 14 :: ILoop
  (search_loop 1148132) :: f27_201.
Definition f27_188 : list instr :=
  IBlock f27_189 :: f27_200.
Definition f27_202 : list instr :=
  IConst 1 :: ILSet 12 :: ILGet 6 :: IConst 64 :: IBin Add :: ILGet 3 :: ILGet 4 :: IConst 1 :: ICall 5 ::
  ILGet 6 :: ILoad 64 :: IConst 449459899 :: IBin Ne :: IBrIf 22 :: IConst 1479 :: ILSet 14 :: ILGet 6 ::
  ILoad 68 :: ILSet 3 :: IBr 35 :: [].
Definition f27_187 : list instr :=
  IBlock f27_188 :: f27_202.
Definition f27_203 : list instr :=
  IConst 1488 :: ILSet 14 :: ILGet 6 :: ILoad 76 :: ILSet 3 :: IBr 34 :: [].
Definition f27_186 : list instr :=
  IBlock f27_187 :: f27_203.
Definition f27_204 : list instr :=
  ILGet 6 :: IConst 328 :: IBin Add :: ILoad 0 :: ILSet 3 :: ILGet 6 :: ILoad 324 :: ILSet 14 :: [].
Definition f27_185 : list instr :=
  IBlock f27_186 :: f27_204.
Definition f27_205 : list instr :=
  IConst 1 :: ILSet 12 :: IBr 26 :: [].
Definition f27_184 : list instr :=
  IBlock f27_185 :: f27_205.
Definition f27_53 : list instr :=
  IBlock f27_54 :: f27_184.
Definition f27_214 : list instr :=
  ILGet 4 :: IConst 1 :: IBin Eq :: IBrIf 0 :: ILGet 3 :: IConst 2 :: IBin Add :: ILSet 13 :: ILGet 3 ::
  ILoad8U 1 :: IConst 63 :: IBin And :: ILSet 11 :: [].
Definition f27_216 : list instr :=
  ILGet 10 :: IConst 128 :: IBin LtU :: IBrIf 0 :: ILGet 10 :: IConst 256 :: IBin LtU :: IBrIf 1 :: ILGet 10
  :: IConst 384 :: IBin LtU :: IBrIf 2 :: ILGet 10 :: IConst 4294959104 :: IBin Add :: IConst 112 :: IBin LtU
  :: IBrIf 3 :: ILGet 10 :: IConst 4294958944 :: IBin Add :: IConst 48 :: IBin LtU :: IBrIf 4 :: ILGet 10 ::
  IConst 2097136 :: IBin And :: IConst 65520 :: IBin Ne :: IBrIf 55 :: IConst 1 :: ILSet 10 :: ILGet 6 ::
  IConst 112 :: IBin Add :: ILGet 3 :: ILGet 4 :: IConst 1 :: ICall 5 :: ILGet 6 :: ILoad 112 :: IConst
  1487264309 :: IBin Ne :: IBrIf 58 :: IConst 2 :: ILSet 12 :: IConst 1399 :: ILSet 14 :: ILGet 6 :: ILoad 116
  :: ILSet 3 :: IBr 34 :: [].
Definition f27_215 : list instr :=
  ILGet 10 :: IConst 31 :: IBin And :: ILSet 14 :: IBlock (first_char 56) :: f27_216.
Definition f27_213 : list instr :=
  ILGet 3 :: ILoad8S 0 :: ILTee 10 :: IConst 4294967295 :: IBin GtS :: IBrIf 0 :: IConst 0 :: ILSet 11 ::
  ILGet 3 :: ILGet 4 :: IBin Add :: ILTee 12 :: ILSet 13 :: IBlock f27_214 :: f27_215.
Definition f27_217 : list instr :=
  ILGet 6 :: IConst 320 :: IBin Add :: ILGet 3 :: ILGet 4 :: IConst 2 :: ICall 30 :: ILGet 6 :: ILoad 320 ::
  IConst 1 :: IBin Eq :: IBrIf 4 :: ILGet 6 :: IConst 336 :: IBin Add :: ILGet 3 :: ILGet 4 :: IConst 1 ::
  ICall 30 :: ILGet 6 :: ILoad 336 :: IConst 1 :: IBin Ne :: IBrIf 54 :: ILGet 6 :: IConst 344 :: IBin Add ::
  ILoad 0 :: ILSet 3 :: ILGet 6 :: ILoad 340 :: ILSet 14 :: IBr 5 :: [].
Definition f27_212 : list instr :=
  IBlock f27_213 :: f27_217.
Definition f27_219 : list instr :=
  ILGet 10 :: IConst 2 :: IBin Shl :: IConst 1147348 :: IBin Add :: ILoad 0 :: ILGet 14 :: IBin Ne :: IBrIf 53
  :: ILGet 10 :: IConst 96 :: IBin GeU :: IBrIf 19 :: IConst 2 :: ILSet 12 :: ILGet 10 :: IConst 2 :: IBin Shl
  :: IConst 1147732 :: IBin Add :: ILoad 0 :: ILSet 14 :: IBr 31 :: [].
Definition f27_218 : list instr :=
  ILGet 6 :: IConst 80 :: IBin Add :: ILGet 3 :: ILGet 4 :: IConst 1 :: ICall 5 :: IConst 0 :: ILSet 10 ::
  IConst 96 :: ILSet 4 :: ILGet 6 :: ILoad 84 :: ILSet 3 :: ILGet 6 :: ILoad 80 :: ILSet 14 :: ILoop
  (search_loop 1147348) :: f27_219.
Definition f27_211 : list instr :=
  IBlock f27_212 :: f27_218.
Definition f27_220 : list instr :=
  IConst 1 :: ILSet 10 :: ILGet 6 :: IConst 88 :: IBin Add :: ILGet 3 :: ILGet 4 :: IConst 1 :: ICall 5 ::
  IConst 2 :: ILSet 12 :: ILGet 6 :: ILoad 88 :: ILTee 4 :: IConst 2355157551 :: IBin GtU :: IConst 2 :: IBin
  Shl :: ILTee 13 :: IConst 1148116 :: IBin Add :: ILoad 0 :: ILGet 4 :: IBin Ne :: IBrIf 55 :: ILGet 6 ::
  ILoad 92 :: ILSet 3 :: ILGet 13 :: IConst 1148124 :: IBin Add :: ILoad 0 :: ILSet 14 :: IBr 30 :: [].
Definition f27_210 : list instr :=
  IBlock f27_211 :: f27_220.
Definition f27_222 : list instr :=
  ILGet 10 :: IConst 2 :: IBin Shl :: IConst 1148132 :: IBin Add :: ILoad 0 :: ILGet 14 :: IBin Ne :: IBrIf 51
  :: ILGet 10 :: IConst 11 :: IBin GeU :: IBrIf 18 :: IConst 2 :: ILSet 12 :: ILGet 10 :: IConst 2 :: IBin Shl
  :: IConst 1148176 :: IBin Add :: ILoad 0 :: ILSet 14 :: IBr 29 :: [].
Definition f27_221 : list instr :=
  ILGet 6 :: IConst 96 :: IBin Add :: ILGet 3 :: ILGet 4 :: IConst 1 :: ICall 5 :: IConst 0 :: ILSet 10 ::
  IConst 11 :: ILSet 4 :: ILGet 6 :: ILoad 100 :: ILSet 3 :: ILGet 6 :: ILoad 96 :: ILSet 14 :: ILoop
  (search_loop 1148132) :: f27_222.
Definition f27_209 : list instr :=
  IBlock f27_210 :: f27_221.
Definition f27_223 : list instr :=
  IConst 1 :: ILSet 10 :: ILGet 6 :: IConst 104 :: IBin Add :: ILGet 3 :: ILGet 4 :: IConst 1 :: ICall 5 ::
  ILGet 6 :: ILoad 104 :: IConst 449459899 :: IBin Ne :: IBrIf 53 :: IConst 2 :: ILSet 12 :: IConst 1390 ::
  ILSet 14 :: ILGet 6 :: ILoad 108 :: ILSet 3 :: IBr 29 :: [].
Definition f27_208 : list instr :=
  IBlock f27_209 :: f27_223.
Definition f27_224 : list instr :=
  ILGet 6 :: IConst 328 :: IBin Add :: ILoad 0 :: ILSet 3 :: ILGet 6 :: ILoad 324 :: ILSet 14 :: [].
Definition f27_207 : list instr :=
  IBlock f27_208 :: f27_224.
Definition f27_225 : list instr :=
  IConst 2 :: ILSet 12 :: IBr 26 :: [].
Definition f27_206 : list instr :=
  IBlock f27_207 :: f27_225.
Definition f27_52 : list instr :=
  IBlock f27_53 :: f27_206.
Definition f27_234 : list instr :=
  ILGet 4 :: IConst 1 :: IBin Eq :: IBrIf 0 :: ILGet 3 :: IConst 2 :: IBin Add :: ILSet 13 :: ILGet 3 ::
  ILoad8U 1 :: IConst 63 :: IBin And :: ILSet 11 :: [].
Definition f27_236 : list instr :=
  ILGet 10 :: IConst 128 :: IBin LtU :: IBrIf 0 :: ILGet 10 :: IConst 256 :: IBin LtU :: IBrIf 1 :: ILGet 10
  :: IConst 384 :: IBin LtU :: IBrIf 2 :: ILGet 10 :: IConst 4294959104 :: IBin Add :: IConst 112 :: IBin LtU
  :: IBrIf 3 :: ILGet 10 :: IConst 4294958944 :: IBin Add :: IConst 48 :: IBin LtU :: IBrIf 4 :: ILGet 10 ::
  IConst 2097136 :: IBin And :: IConst 65520 :: IBin Ne :: IBrIf 54 :: IConst 1 :: ILSet 10 :: ILGet 6 ::
  IConst 152 :: IBin Add :: ILGet 3 :: ILGet 4 :: IConst 1 :: ICall 5 :: ILGet 6 :: ILoad 152 :: IConst
  1487264309 :: IBin Ne :: IBrIf 57 :: IConst 3 :: ILSet 12 :: IConst 1058 :: ILSet 14 :: ILGet 6 :: ILoad 156
  :: ILSet 3 :: IBr 35 :: [].
Definition f27_235 : list instr :=
  ILGet 10 :: IConst 31 :: IBin And :: ILSet 14 :: IBlock (first_char 55) :: f27_236.
Definition f27_233 : list instr :=
  ILGet 3 :: ILoad8S 0 :: ILTee 10 :: IConst 4294967295 :: IBin GtS :: IBrIf 0 :: IConst 0 :: ILSet 11 ::
  ILGet 3 :: ILGet 4 :: IBin Add :: ILTee 12 :: ILSet 13 :: IBlock f27_234 :: f27_235.
Definition f27_237 : list instr :=
  ILGet 6 :: IConst 320 :: IBin Add :: ILGet 3 :: ILGet 4 :: IConst 2 :: ICall 31 :: ILGet 6 :: ILoad 320 ::
  IConst 1 :: IBin Eq :: IBrIf 4 :: ILGet 6 :: IConst 336 :: IBin Add :: ILGet 3 :: ILGet 4 :: IConst 1 ::
  ICall 31 :: ILGet 6 :: ILoad 336 :: IConst 1 :: IBin Ne :: IBrIf 53 :: ILGet 6 :: IConst 344 :: IBin Add ::
  ILoad 0 :: ILSet 3 :: ILGet 6 :: ILoad 340 :: ILSet 14 :: IBr 5 :: [].
Definition f27_232 : list instr :=
  IBlock f27_233 :: f27_237.
Definition f27_239 : list instr :=
  ILGet 10 :: IConst 2 :: IBin Shl :: IConst 1147348 :: IBin Add :: ILoad 0 :: ILGet 14 :: IBin Ne :: IBrIf 52
  :: ILGet 10 :: IConst 96 :: IBin GeU :: IBrIf 20 :: ILGet 10 :: IConst 2 :: IBin Shl :: IConst 1146320 ::
  IBin Add :: ILoad 0 :: ILSet 14 :: IBr 4 :: [].
Definition f27_238 : list instr :=
  ILGet 6 :: IConst 120 :: IBin Add :: ILGet 3 :: ILGet 4 :: IConst 1 :: ICall 5 :: IConst 0 :: ILSet 10 ::
  IConst 96 :: ILSet 4 :: ILGet 6 :: ILoad 124 :: ILSet 3 :: ILGet 6 :: ILoad 120 :: ILSet 14 :: ILoop
  (search_loop 1147348) :: f27_239.
Definition f27_231 : list instr :=
  IBlock f27_232 :: f27_238.
Definition f27_240 : list instr :=
  IConst 1 :: ILSet 10 :: ILGet 6 :: IConst 128 :: IBin Add :: ILGet 3 :: ILGet 4 :: IConst 1 :: ICall 5 ::
  ILGet 6 :: ILoad 128 :: ILTee 4 :: IConst 2355157551 :: IBin GtU :: IConst 2 :: IBin Shl :: ILTee 13 ::
  IConst 1148116 :: IBin Add :: ILoad 0 :: ILGet 4 :: IBin Ne :: IBrIf 54 :: ILGet 6 :: ILoad 132 :: ILSet 3
  :: ILGet 13 :: IConst 1146704 :: IBin Add :: ILoad 0 :: ILSet 14 :: IBr 3 :: [].
Definition f27_230 : list instr :=
  IBlock f27_231 :: f27_240.
Definition f27_242 : list instr :=
  ILGet 10 :: IConst 2 :: IBin Shl :: IConst 1148132 :: IBin Add :: ILoad 0 :: ILGet 14 :: IBin Ne :: IBrIf 50
  :: ILGet 10 :: IConst 11 :: IBin GeU :: IBrIf 19 :: ILGet 10 :: IConst 2 :: IBin Shl :: IConst 1146712 ::
  IBin Add :: ILoad 0 :: ILSet 14 :: IBr 2 :: [].
Definition f27_241 : list instr :=
  ILGet 6 :: IConst 136 :: IBin Add :: ILGet 3 :: ILGet 4 :: IConst 1 :: ICall 5 :: IConst 0 :: ILSet 10 ::
  IConst 11 :: ILSet 4 :: ILGet 6 :: ILoad 140 :: ILSet 3 :: ILGet 6 :: ILoad 136 :: ILSet 14 :: ILoop
  (search_loop 1148132) :: f27_242.
Definition f27_229 : list instr :=
  IBlock f27_230 :: f27_241.
Definition f27_243 : list instr :=
  IConst 1 :: ILSet 10 :: ILGet 6 :: IConst 144 :: IBin Add :: ILGet 3 :: ILGet 4 :: IConst 1 :: ICall 5 ::
  ILGet 6 :: ILoad 144 :: IConst 449459899 :: IBin Ne :: IBrIf 52 :: IConst 3 :: ILSet 12 :: IConst 1051 ::
  ILSet 14 :: ILGet 6 :: ILoad 148 :: ILSet 3 :: IBr 30 :: [].
Definition f27_228 : list instr :=
  IBlock f27_229 :: f27_243.
Definition f27_244 : list instr :=
  ILGet 6 :: IConst 328 :: IBin Add :: ILoad 0 :: ILSet 3 :: ILGet 6 :: ILoad 324 :: ILSet 14 :: [].
Definition f27_227 : list instr :=
  IBlock f27_228 :: f27_244.
Definition f27_245 : list instr :=
  IConst 3 :: ILSet 12 :: IBr 27 :: [].
Definition f27_226 : list instr :=
  IBlock f27_227 :: f27_245.
Definition f27_51 : list instr :=
  IBlock f27_52 :: f27_226.
Definition f27_246 : list instr :=
  ILGet 6 :: IConst 248 :: IBin Add :: ILoad 0 :: ILSet 3 :: IConst 0 :: ILSet 12 :: ILGet 6 :: ILoad 244 ::
  ILSet 14 :: IBr 22 :: [].
Definition f27_50 : list instr :=
  IBlock f27_51 :: f27_246.
Definition f27_247 : list instr :=
  ILGet 6 :: IConst 296 :: IBin Add :: ILoad 0 :: ILSet 3 :: IBr 16 :: [].
Definition f27_49 : list instr :=
  IBlock f27_50 :: f27_247.
Definition f27_248 : list instr :=
  ILGet 6 :: IConst 312 :: IBin Add :: ILoad 0 :: ILSet 3 :: IBr 18 :: [].
Definition f27_48 : list instr :=
  IBlock f27_49 :: f27_248.
Definition f27_249 : list instr :=
  ILGet 6 :: IConst 296 :: IBin Add :: ILoad 0 :: ILSet 3 :: IBr 14 :: [].
Definition f27_47 : list instr :=
  IBlock f27_48 :: f27_249.
Definition f27_250 : list instr :=
  ILGet 6 :: IConst 312 :: IBin Add :: ILoad 0 :: ILSet 3 :: IBr 16 :: [].
Definition f27_46 : list instr :=
  IBlock f27_47 :: f27_250.
Definition f27_251 : list instr :=
  ILGet 10 :: IConst 12 :: ICall 6 :: IUnreachable :: [].
Definition f27_45 : list instr :=
  IBlock f27_46 :: f27_251.
Definition f27_252 : list instr :=
  ILGet 6 :: IConst 264 :: IBin Add :: ILoad 0 :: ILSet 3 :: IBr 13 :: [].
Definition f27_44 : list instr :=
  IBlock f27_45 :: f27_252.
Definition f27_253 : list instr :=
  ILGet 6 :: IConst 280 :: IBin Add :: ILoad 0 :: ILSet 3 :: IBr 11 :: [].
Definition f27_43 : list instr :=
  IBlock f27_44 :: f27_253.
Definition f27_254 : list instr :=
  ILGet 6 :: IConst 296 :: IBin Add :: ILoad 0 :: ILSet 3 :: IBr 9 :: [].
Definition f27_42 : list instr :=
  IBlock f27_43 :: f27_254.
Definition f27_255 : list instr :=
  ILGet 6 :: IConst 312 :: IBin Add :: ILoad 0 :: ILSet 3 :: IBr 11 :: [].
Definition f27_41 : list instr :=
  IBlock f27_42 :: f27_255.
Definition f27_256 : list instr :=
  ILGet 10 :: IConst 57 :: ICall 6 :: IUnreachable :: [].
Definition f27_40 : list instr :=
  IBlock f27_41 :: f27_256.
Definition f27_257 : list instr :=
  ILGet 10 :: IConst 96 :: ICall 6 :: IUnreachable :: [].
Definition f27_39 : list instr :=
  IBlock f27_40 :: f27_257.
Definition f27_258 : list instr :=
  ILGet 10 :: IConst 11 :: ICall 6 :: IUnreachable :: [].
Definition f27_38 : list instr :=
  IBlock f27_39 :: f27_258.
Definition f27_259 : list instr :=
  ILGet 10 :: IConst 96 :: ICall 6 :: IUnreachable :: [].
Definition f27_37 : list instr :=
  IBlock f27_38 :: f27_259.
Definition f27_260 : list instr :=
  ILGet 10 :: IConst 11 :: ICall 6 :: IUnreachable :: [].
Definition f27_36 : list instr :=
  IBlock f27_37 :: f27_260.
Definition f27_261 : list instr :=
  ILGet 10 :: IConst 96 :: ICall 6 :: IUnreachable :: [].
Definition f27_35 : list instr :=
  IBlock f27_36 :: f27_261.
Definition f27_262 : list instr :=
  ILGet 10 :: IConst 11 :: ICall 6 :: IUnreachable :: [].
Definition f27_34 : list instr :=
  IBlock f27_35 :: f27_262.
Definition f27_263 : list instr :=
  IConst 1 :: ILSet 10 :: IBr 32 :: [].
Definition f27_33 : list instr :=
  IBlock f27_34 :: f27_263.
Definition f27_264 : list instr :=
  IConst 0 :: ILSet 12 :: ILGet 6 :: ILoad 292 :: ILSet 14 :: IBr 4 :: [].
Definition f27_32 : list instr :=
  IBlock f27_33 :: f27_264.
Definition f27_265 : list instr :=
  IConst 0 :: ILSet 12 :: ILGet 6 :: ILoad 276 :: ILSet 14 :: IBr 3 :: [].
Definition f27_31 : list instr :=
  IBlock f27_32 :: f27_265.
Definition f27_266 : list instr :=
  IConst 0 :: ILSet 12 :: ILGet 6 :: ILoad 260 :: ILSet 14 :: IBr 2 :: [].
Definition f27_30 : list instr :=
  IBlock f27_31 :: f27_266.
Definition f27_267 : list instr :=
  IConst 0 :: ILSet 12 :: ILGet 6 :: ILoad 308 :: ILSet 14 :: IBr 1 :: [].
Definition f27_29 : list instr :=
  IBlock f27_30 :: f27_267.
Definition f27_268 : list instr :=
  IConst 0 :: ILSet 12 :: ILGet 6 :: ILoad 324 :: ILSet 14 :: [].
Definition f27_28 : list instr :=
  IBlock f27_29 :: f27_268.
Definition f27_269 : list instr :=
  ILGet 12 :: IConst 5 :: IBin Eq :: IBrIf 23 :: ILGet 12 :: IBrTable [7; 0; 1; 3; 10]%nat 7 :: [].
Definition f27_27 : list instr :=
  IBlock f27_28 :: f27_269.
Definition f27_270 : list instr :=
  ILGet 14 :: IConst 1500 :: IBin LeU :: IBrIf 5 :: ILGet 14 :: IConst 1501 :: ICall 6 :: IUnreachable :: [].
Definition f27_26 : list instr :=
  IBlock f27_27 :: f27_270.
Definition f27_271 : list instr :=
  ILGet 14 :: IConst 1411 :: IBin LeU :: IBrIf 0 :: ILGet 14 :: IConst 1412 :: ICall 6 :: IUnreachable :: [].
Definition f27_25 : list instr :=
  IBlock f27_26 :: f27_271.
Definition f27_272 : list instr :=
  ILGet 14 :: IConst 2 :: IBin Shl :: IConst 1520320 :: IBin Add :: ILSet 10 :: IBr 8 :: [].
Definition f27_24 : list instr :=
  IBlock f27_25 :: f27_272.
Definition f27_273 : list instr :=
  ILGet 14 :: IConst 1070 :: IBin GtU :: IBrIf 1 :: [].
Definition f27_23 : list instr :=
  IBlock f27_24 :: f27_273.
Definition f27_274 : list instr :=
  ILGet 14 :: IConst 2 :: IBin Shl :: IConst 1525968 :: IBin Add :: ILSet 10 :: IBr 6 :: [].
Definition f27_22 : list instr :=
  IBlock f27_23 :: f27_274.
Definition f27_275 : list instr :=
  ILGet 14 :: IConst 1071 :: ICall 6 :: IUnreachable :: [].
Definition f27_21 : list instr :=
  IBlock f27_22 :: f27_275.
Definition f27_276 : list instr :=
  ILGet 14 :: IConst 2 :: IBin Shl :: IConst 1514316 :: IBin Add :: ILSet 10 :: IBr 4 :: [].
Definition f27_20 : list instr :=
  IBlock f27_21 :: f27_276.
Definition f27_277 : list instr :=
  ILGet 14 :: IConst 91227 :: IBin LeU :: IBrIf 0 :: ILGet 14 :: IConst 91228 :: ICall 6 :: IUnreachable :: [].
Definition f27_19 : list instr :=
  IBlock f27_20 :: f27_277.
Definition f27_278 : list instr :=
  ILGet 14 :: IConst 2 :: IBin Shl :: IConst 1149404 :: IBin Add :: ILSet 10 :: IBr 2 :: [].
Definition f27_18 : list instr :=
  IBlock f27_19 :: f27_278.
Definition f27_288 : list instr :=
  ILGet 10 :: IConst 2 :: IBin Shl :: IConst 1144428 :: IBin Add :: ILoad 0 :: ILGet 14 :: IBin Ne :: IBrIf 21
  :: ILGet 10 :: IConst 108 :: IBin GeU :: IBrIf 20 :: ILGet 10 :: IConst 2 :: IBin Shl :: IConst 1144860 ::
  IBin Add :: ILoad 0 :: ILSet 14 :: IBr 7 :: [].
Definition f27_287 : list instr :=
  ILGet 10 :: IConst 2097088 :: IBin And :: IConst 12288 :: IBin Eq :: IBrIf 0 :: ILGet 10 :: IConst
  4294953984 :: IBin Add :: IConst 6592 :: IBin LtU :: IBrIf 1 :: ILGet 10 :: IConst 4294947328 :: IBin Add ::
  IConst 20992 :: IBin LtU :: IBrIf 2 :: ILGet 10 :: IConst 4294902016 :: IBin Add :: IConst 240 :: IBin LtU
  :: IBrIf 3 :: ILGet 10 :: IConst 4294836224 :: IBin Add :: IConst 42720 :: IBin LtU :: IBrIf 4 :: ILGet 10
  :: IConst 4294793472 :: IBin Add :: IConst 4160 :: IBin LtU :: IBrIf 5 :: ILGet 10 :: IConst 4294789312 ::
  IBin Add :: IConst 224 :: IBin LtU :: IBrIf 6 :: ILGet 10 :: IConst 4294789088 :: IBin Add :: IConst 5776 ::
  IBin GeU :: IBrIf 21 :: ILGet 6 :: IConst 216 :: IBin Add :: ILGet 3 :: ILGet 4 :: IConst 1 :: ICall 5 ::
  IConst 0 :: ILSet 10 :: IConst 108 :: ILSet 4 :: ILGet 6 :: ILoad 220 :: ILSet 3 :: ILGet 6 :: ILoad 216 ::
  ILSet 14 :: ILoop (search_loop 1144428) :: f27_288.
Definition f27_290 : list instr :=
  ILGet 10 :: IConst 2 :: IBin Shl :: IConst 1078276 :: IBin Add :: ILoad 0 :: ILGet 14 :: IBin Ne :: IBrIf 20
  :: ILGet 10 :: IConst 32 :: IBin GeU :: IBrIf 12 :: ILGet 10 :: IConst 2 :: IBin Shl :: IConst 1078404 ::
  IBin Add :: ILoad 0 :: ILSet 14 :: IBr 6 :: [].
Definition f27_289 : list instr :=
  ILGet 6 :: IConst 160 :: IBin Add :: ILGet 3 :: ILGet 4 :: IConst 1 :: ICall 5 :: IConst 0 :: ILSet 10 ::
  IConst 32 :: ILSet 4 :: ILGet 6 :: ILoad 164 :: ILSet 3 :: ILGet 6 :: ILoad 160 :: ILSet 14 :: ILoop
  (search_loop 1078276) :: f27_290.
Definition f27_286 : list instr :=
  IBlock f27_287 :: f27_289.
Definition f27_292 : list instr :=
  ILGet 10 :: IConst 2 :: IBin Shl :: IConst 1078532 :: IBin Add :: ILoad 0 :: ILGet 14 :: IBin Ne :: IBrIf 19
  :: ILGet 10 :: IConst 81 :: IBin GeU :: IBrIf 12 :: ILGet 10 :: IConst 2 :: IBin Shl :: IConst 1078856 ::
  IBin Add :: ILoad 0 :: ILSet 14 :: IBr 5 :: [].
Definition f27_291 : list instr :=
  ILGet 6 :: IConst 168 :: IBin Add :: ILGet 3 :: ILGet 4 :: IConst 1 :: ICall 5 :: IConst 0 :: ILSet 10 ::
  IConst 81 :: ILSet 4 :: ILGet 6 :: ILoad 172 :: ILSet 3 :: ILGet 6 :: ILoad 168 :: ILSet 14 :: ILoop
  (search_loop 1078532) :: f27_292.
Definition f27_285 : list instr :=
  IBlock f27_286 :: f27_291.
Definition f27_294 : list instr :=
  ILGet 10 :: IConst 2 :: IBin Shl :: IConst 1079180 :: IBin Add :: ILoad 0 :: ILGet 14 :: IBin Ne :: IBrIf 18
  :: ILGet 10 :: IConst 7972 :: IBin GeU :: IBrIf 12 :: ILGet 10 :: IConst 2 :: IBin Shl :: IConst 1111068 ::
  IBin Add :: ILoad 0 :: ILSet 14 :: IBr 4 :: [].
Definition f27_293 : list instr :=
  ILGet 6 :: IConst 176 :: IBin Add :: ILGet 3 :: ILGet 4 :: IConst 1 :: ICall 5 :: IConst 0 :: ILSet 10 ::
  IConst 7972 :: ILSet 4 :: ILGet 6 :: ILoad 180 :: ILSet 3 :: ILGet 6 :: ILoad 176 :: ILSet 14 :: ILoop
  (search_loop 1079180) :: f27_294.
Definition f27_284 : list instr :=
  IBlock f27_285 :: f27_293.
Definition f27_296 : list instr :=
  ILGet 10 :: IConst 2 :: IBin Shl :: IConst 1142956 :: IBin Add :: ILoad 0 :: ILGet 14 :: IBin Ne :: IBrIf 17
  :: ILGet 10 :: IConst 96 :: IBin GeU :: IBrIf 12 :: ILGet 10 :: IConst 2 :: IBin Shl :: IConst 1143340 ::
  IBin Add :: ILoad 0 :: ILSet 14 :: IBr 3 :: [].
Definition f27_295 : list instr :=
  ILGet 6 :: IConst 184 :: IBin Add :: ILGet 3 :: ILGet 4 :: IConst 1 :: ICall 5 :: IConst 0 :: ILSet 10 ::
  IConst 96 :: ILSet 4 :: ILGet 6 :: ILoad 188 :: ILSet 3 :: ILGet 6 :: ILoad 184 :: ILSet 14 :: ILoop
  (search_loop 1142956) :: f27_296.
Definition f27_283 : list instr :=
  IBlock f27_284 :: f27_295.
Definition f27_298 : list instr :=
  ILGet 10 :: IConst 2 :: IBin Shl :: IConst 1143724 :: IBin Add :: ILoad 0 :: ILGet 14 :: IBin Ne :: IBrIf 16
  :: ILGet 10 :: IConst 36 :: IBin GeU :: IBrIf 12 :: ILGet 10 :: IConst 2 :: IBin Shl :: IConst 1143868 ::
  IBin Add :: ILoad 0 :: ILSet 14 :: IBr 2 :: [].
Definition f27_297 : list instr :=
  ILGet 6 :: IConst 192 :: IBin Add :: ILGet 3 :: ILGet 4 :: IConst 1 :: ICall 5 :: IConst 0 :: ILSet 10 ::
  IConst 36 :: ILSet 4 :: ILGet 6 :: ILoad 196 :: ILSet 3 :: ILGet 6 :: ILoad 192 :: ILSet 14 :: ILoop
  (search_loop 1143724) :: f27_298.
Definition f27_282 : list instr :=
  IBlock f27_283 :: f27_297.
Definition f27_300 : list instr :=
  ILGet 10 :: IConst 2 :: IBin Shl :: IConst 1144012 :: IBin Add :: ILoad 0 :: ILGet 14 :: IBin Ne :: IBrIf 15
  :: ILGet 10 :: IConst 44 :: IBin GeU :: IBrIf 12 :: ILGet 10 :: IConst 2 :: IBin Shl :: IConst 1144188 ::
  IBin Add :: ILoad 0 :: ILSet 14 :: IBr 1 :: [].
Definition f27_299 : list instr :=
  ILGet 6 :: IConst 200 :: IBin Add :: ILGet 3 :: ILGet 4 :: IConst 1 :: ICall 5 :: IConst 0 :: ILSet 10 ::
  IConst 44 :: ILSet 4 :: ILGet 6 :: ILoad 204 :: ILSet 3 :: ILGet 6 :: ILoad 200 :: ILSet 14 :: ILoop
  (search_loop 1144012) :: f27_300.
Definition f27_281 : list instr :=
  IBlock f27_282 :: f27_299.
Definition f27_302 : list instr :=
  ILGet 10 :: IConst 2 :: IBin Shl :: IConst 1144364 :: IBin Add :: ILoad 0 :: ILGet 14 :: IBin Ne :: IBrIf 14
  :: ILGet 10 :: IConst 8 :: IBin GeU :: IBrIf 12 :: ILGet 10 :: IConst 2 :: IBin Shl :: IConst 1144396 ::
  IBin Add :: ILoad 0 :: ILSet 14 :: [].
Definition f27_301 : list instr :=
  ILGet 6 :: IConst 208 :: IBin Add :: ILGet 3 :: ILGet 4 :: IConst 1 :: ICall 5 :: IConst 0 :: ILSet 10 ::
  IConst 8 :: ILSet 4 :: ILGet 6 :: ILoad 212 :: ILSet 3 :: ILGet 6 :: ILoad 208 :: ILSet 14 :: ILoop
  (search_loop 1144364) :: f27_302.
Definition f27_280 : list instr :=
  IBlock f27_281 :: f27_301.
Definition f27_303 : list instr :=
  IConst 4 :: ILSet 12 :: [].
Definition f27_279 : list instr :=
  IBlock f27_280 :: f27_303.
Definition f27_17 : list instr :=
  IBlock f27_18 :: f27_279.
Definition f27_304 : list instr :=
  ILGet 14 :: IConst 276441 :: IBin GeU :: IBrIf 1 :: ILGet 14 :: IConst 2 :: IBin Shl :: IConst 1530252 ::
  IBin Add :: ILSet 10 :: [].
Definition f27_16 : list instr :=
  IBlock f27_17 :: f27_304.
Definition f27_306 : list instr :=
  ILGet 2 :: ILoad 0 :: ILTee 10 :: ILGet 9 :: IBin GeU :: IBrIf 0 :: ILGet 2 :: ILGet 9 :: IStore 0 :: ILGet
  9 :: ILSet 10 :: [].
Definition f27_307 : list instr :=
  ILGet 4 :: IConst 255 :: IBin And :: ILSet 15 :: ILGet 11 :: ILGet 10 :: IConst 1 :: IBin Add :: ILTee 13 ::
  IBin Add :: IConst 2 :: IBin Add :: ILGet 8 :: IBin GeU :: IBrIf 1 :: ILGet 2 :: ILoad 4 :: ILSet 8 :: ILGet
  10 :: ILSet 9 :: IBr 2 :: [].
Definition f27_305 : list instr :=
  ILGet 10 :: ILoad 0 :: ILTee 4 :: IConst 16 :: IBin ShrU :: ILTee 16 :: IConst 255 :: IBin And :: ILTee 11
  :: IConst 32 :: IBin GtU :: IBrIf 12 :: IBlock f27_306 :: f27_307.
Definition f27_15 : list instr :=
  IBlock f27_16 :: f27_305.
Definition f27_308 : list instr :=
  ILGet 14 :: IConst 276441 :: ICall 6 :: IUnreachable :: [].
Definition f27_14 : list instr :=
  IBlock f27_15 :: f27_308.
Definition f27_310 : list instr :=
  ILGet 2 :: ILoad 8 :: ILTee 10 :: IConst 23 :: IBin GtU :: IBrIf 0 :: IConst 24 :: ILSet 10 :: ILGet 2 ::
  IConst 24 :: IStore 8 :: [].
Definition f27_311 : list instr :=
  ILGet 2 :: IConst 0 :: IStore 8 :: ILGet 2 :: ILGet 10 :: ILGet 2 :: ILoad 4 :: IBin Add :: IConst 1 :: IBin
  Add :: ILTee 8 :: IStore 4 :: ILGet 9 :: IConst 1 :: IBin Add :: ILSet 13 :: [].
Definition f27_309 : list instr :=
  ILGet 2 :: ILGet 9 :: IStore 0 :: IBlock f27_310 :: f27_311.
Definition f27_13 : list instr :=
  IBlock f27_14 :: f27_309.
Definition f27_318 : list instr :=
  IConst 32 :: ILGet 23 :: IBin Sub :: ILTee 23 :: ILGet 11 :: IBin GeU :: IBrIf 0 :: ILGet 12 :: ILGet 14 ::
  ILGet 22 :: IConst 2 :: IBin Add :: ICall 32 :: ILGet 23 :: ILGet 16 :: IBin Sub :: IConst 31 :: IBin And ::
  IBin ShrU :: ILGet 1 :: IBin Or :: ILSet 1 :: [].
Definition f27_319 : list instr :=
  ILGet 13 :: IConst 5895 :: IBin GtU :: IBrIf 3 :: ILGet 4 :: ILGet 4 :: ILoad 0 :: ILGet 1 :: ILGet 18 ::
  IBin Shl :: IBin Xor :: IStore 0 :: ILGet 19 :: ILGet 11 :: IBin GeU :: IBrIf 0 :: ILGet 9 :: IConst 5895 ::
  IBin GtU :: IBrIf 4 :: ILGet 8 :: ILGet 8 :: ILoad 0 :: ILGet 1 :: ILGet 20 :: IBin ShrU :: IBin Xor ::
  IStore 0 :: [].
Definition f27_317 : list instr :=
  ILGet 10 :: ILGet 17 :: IBin LtU :: IBrIf 0 :: ILGet 12 :: ILGet 14 :: ILGet 7 :: IConst 5 :: IBin ShrU ::
  ILTee 22 :: IConst 1 :: IBin Add :: ICall 32 :: ILGet 7 :: IConst 31 :: IBin And :: ILTee 23 :: IBin Shl ::
  ILGet 21 :: IBin ShrU :: ILSet 1 :: IBlock f27_318 :: f27_319.
Definition f27_320 : list instr :=
  ILGet 4 :: IConst 44 :: IBin Add :: ILSet 4 :: ILGet 13 :: IConst 11 :: IBin Add :: ILSet 13 :: ILGet 8 ::
  IConst 44 :: IBin Add :: ILSet 8 :: ILGet 9 :: IConst 11 :: IBin Add :: ILSet 9 :: ILGet 7 :: ILGet 11 ::
  IBin Add :: ILSet 7 :: ILGet 15 :: ILGet 10 :: IConst 1 :: IBin Add :: ILTee 10 :: IBin Ne :: IBrIf 0 :: [].
Definition f27_316 : list instr :=
  IBlock f27_317 :: f27_320.
Definition f27_321 : list instr :=
  ILGet 2 :: ILoad 0 :: ILSet 9 :: [].
Definition f27_315 : list instr :=
  ILGet 7 :: ILGet 10 :: IBin Sub :: ILGet 4 :: IConst 8 :: IBin ShrU :: IConst 255 :: IBin And :: ILTee 4 ::
  ILGet 4 :: ILGet 10 :: IBin Add :: ILTee 15 :: ILGet 7 :: IBin GtU :: ISelect :: IEqz :: IBrIf 0 :: ILGet 10
  :: IConst 44 :: IBin Mul :: ILTee 8 :: ILGet 13 :: IConst 5 :: IBin ShrU :: ILTee 9 :: IConst 2 :: IBin Shl
  :: IBin Add :: IConst 2636384 :: IBin Add :: ILSet 4 :: ILGet 8 :: ILGet 13 :: ILGet 11 :: IBin Add ::
  IConst 5 :: IBin ShrU :: ILTee 17 :: IConst 2 :: IBin Shl :: IBin Add :: IConst 2636384 :: IBin Add :: ILSet
  8 :: ILGet 7 :: ILGet 15 :: ILGet 7 :: ILGet 15 :: IBin LtU :: ISelect :: ILSet 15 :: IConst 32 :: ILGet 13
  :: IConst 31 :: IBin And :: ILTee 18 :: IBin Sub :: ILTee 19 :: IConst 31 :: IBin And :: ILSet 20 :: ILGet 9
  :: ILGet 10 :: IConst 11 :: IBin Mul :: ILTee 7 :: IBin Add :: ILSet 13 :: ILGet 17 :: ILGet 7 :: IBin Add
  :: ILSet 9 :: IConst 0 :: ILSet 7 :: IConst 0 :: ILGet 16 :: IBin Sub :: IConst 31 :: IBin And :: ILSet 21
  :: ILGet 1 :: ILoad 4 :: ILSet 17 :: ILoop f27_316 :: f27_321.
Definition f27_325 : list instr :=
  ILGet 5 :: IConst 255 :: IBin And :: IBrTable [2; 0; 0; 1; 2]%nat 2 :: [].
Definition f27_326 : list instr :=
  IConst 30 :: ILSet 1 :: IBr 1 :: [].
Definition f27_324 : list instr :=
  IBlock f27_325 :: f27_326.
Definition f27_327 : list instr :=
  IConst 24 :: ILSet 1 :: [].
Definition f27_323 : list instr :=
  IBlock f27_324 :: f27_327.
Definition f27_328 : list instr :=
  ILGet 1 :: ILGet 2 :: ILoad 8 :: IBin LeU :: IBrIf 12 :: ILGet 2 :: ILGet 1 :: IStore 8 :: IBr 12 :: [].
Definition f27_322 : list instr :=
  ILGet 2 :: ILGet 11 :: ILGet 9 :: IBin Add :: IConst 3 :: IBin Add :: IStore 0 :: IConst 32 :: ILSet 1 ::
  IBlock f27_323 :: f27_328.
Definition f27_314 : list instr :=
  IBlock f27_315 :: f27_322.
Definition f27_329 : list instr :=
  ILGet 13 :: IConst 5896 :: ICall 6 :: IUnreachable :: [].
Definition f27_313 : list instr :=
  IBlock f27_314 :: f27_329.
Definition f27_330 : list instr :=
  ILGet 9 :: IConst 5896 :: ICall 6 :: IUnreachable :: [].
Definition f27_312 : list instr :=
  ILGet 7 :: ILGet 15 :: ILGet 8 :: IBin Add :: ILTee 10 :: IBin LtU :: IBrIf 9 :: IBlock f27_313 :: f27_330.
Definition f27_12 : list instr :=
  IBlock f27_13 :: f27_312.
Definition f27_331 : list instr :=
  ILGet 10 :: IConst 32 :: ICall 6 :: IUnreachable :: [].
Definition f27_11 : list instr :=
  IBlock f27_12 :: f27_331.
Definition f27_332 : list instr :=
  ILGet 10 :: IConst 81 :: ICall 6 :: IUnreachable :: [].
Definition f27_10 : list instr :=
  IBlock f27_11 :: f27_332.
Definition f27_333 : list instr :=
  ILGet 10 :: IConst 7972 :: ICall 6 :: IUnreachable :: [].
Definition f27_9 : list instr :=
  IBlock f27_10 :: f27_333.
Definition f27_334 : list instr :=
  ILGet 10 :: IConst 96 :: ICall 6 :: IUnreachable :: [].
Definition f27_8 : list instr :=
  IBlock f27_9 :: f27_334.
Definition f27_335 : list instr :=
  ILGet 10 :: IConst 36 :: ICall 6 :: IUnreachable :: [].
Definition f27_7 : list instr :=
  IBlock f27_8 :: f27_335.
Definition f27_336 : list instr :=
  ILGet 10 :: IConst 44 :: ICall 6 :: IUnreachable :: [].
Definition f27_6 : list instr :=
  IBlock f27_7 :: f27_336.
Definition f27_337 : list instr :=
  ILGet 10 :: IConst 8 :: ICall 6 :: IUnreachable :: [].
Definition f27_5 : list instr :=
  IBlock f27_6 :: f27_337.
Definition f27_338 : list instr :=
  ILGet 10 :: IConst 108 :: ICall 6 :: IUnreachable :: [].
Definition f27_4 : list instr :=
  IBlock f27_5 :: f27_338.
Definition f27_339 : list instr :=
  IConst 1 :: ILSet 10 :: IBr 2 :: [].
Definition f27_3 : list instr :=
  ILGet 1 :: IConst 12 :: IBin Add :: ILoad 0 :: ILTee 7 :: IConst 536 :: IBin GtU :: IBrIf 0 :: ILGet 1 ::
  ILoad 8 :: ILTee 8 :: IConst 336 :: IBin GtU :: IBrIf 0 :: ILGet 1 :: ILoad 0 :: ILTee 9 :: ILGet 8 :: IBin
  GeU :: IBrIf 0 :: IBlock f27_4 :: f27_339.
Definition f27_340 : list instr :=
  IConst 0 :: ILSet 3 :: [].
Definition f27_2 : list instr :=
  IBlock f27_3 :: f27_340.
Definition f27_341 : list instr :=
  IConst 0 :: ILSet 10 :: [].
Definition f27_1 : list instr :=
  IBlock f27_2 :: f27_341.
Definition f27_342 : list instr :=
  ILGet 0 :: ILGet 3 :: IStore 4 :: ILGet 0 :: ILGet 10 :: IStore 0 :: ILGet 6 :: IConst 352 :: IBin Add ::
  IGSet 0 :: [].
Definition f27 : list instr :=
  IGGet 0 :: IConst 352 :: IBin Sub :: ILTee 6 :: IGSet 0 :: IBlock f27_1 :: f27_342.

Definition f28_4 : list instr :=
  ILGet 2 :: IEqz :: IBrIf 0 :: ILGet 1 :: ILGet 2 :: IBin Eq :: IBrIf 0 :: ILGet 1 :: ILGet 2 :: IBin LeU ::
  IBrIf 1 :: ILGet 0 :: ILGet 2 :: IBin Add :: ILoad8S 0 :: IConst 4294967232 :: IBin LtS :: IBrIf 1 :: [].
Definition f28_5 : list instr :=
  ILGet 3 :: ILSet 2 :: [].
Definition f28_3 : list instr :=
  IBlock f28_4 :: f28_5.
Definition f28_9 : list instr :=
  ILGet 2 :: ILGet 1 :: IBin GeU :: IBrIf 0 :: ILGet 0 :: ILGet 2 :: IBin Add :: ILoad8S 0 :: IConst
  4294967232 :: IBin LtS :: IBrIf 0 :: ILGet 2 :: ILSet 3 :: IBr 2 :: [].
Definition f28_10 : list instr :=
  ILGet 2 :: IConst 4294967295 :: IBin Add :: ILSet 3 :: ILGet 2 :: IConst 1 :: IBin Eq :: IBrIf 1 :: ILGet 4
  :: ILGet 2 :: IBin Eq :: ILSet 5 :: ILGet 3 :: ILSet 2 :: ILGet 5 :: IEqz :: IBrIf 0 :: [].
Definition f28_8 : list instr :=
  IBlock f28_9 :: f28_10.
Definition f28_7 : list instr :=
  ILoop f28_8 :: [].
Definition f28_12 : list instr :=
  ILGet 2 :: IConst 1 :: IBin Add :: ILGet 1 :: IBin Eq :: IBrIf 0 :: ILGet 2 :: IConst 2 :: IBin Add :: ILSet
  0 :: ILGet 2 :: ILoad8U 1 :: IConst 63 :: IBin And :: IConst 6 :: IBin Shl :: ILSet 4 :: [].
Definition f28_14 : list instr :=
  ILGet 0 :: ILGet 1 :: IBin Eq :: IBrIf 0 :: ILGet 0 :: IConst 1 :: IBin Add :: ILSet 2 :: ILGet 0 :: ILoad8U
  0 :: IConst 63 :: IBin And :: ILSet 5 :: [].
Definition f28_16 : list instr :=
  ILGet 2 :: ILGet 1 :: IBin Eq :: IBrIf 0 :: ILGet 2 :: ILoad8U 0 :: IConst 63 :: IBin And :: ILSet 3 :: [].
Definition f28_17 : list instr :=
  ILGet 4 :: IConst 6 :: IBin Shl :: ILGet 0 :: IConst 18 :: IBin Shl :: IConst 1835008 :: IBin And :: IBin Or
  :: ILGet 3 :: IBin Or :: IConst 1114112 :: IBin Eq :: IBrIf 1 :: [].
Definition f28_15 : list instr :=
  ILGet 3 :: IConst 255 :: IBin And :: IConst 240 :: IBin LtU :: IBrIf 0 :: ILGet 3 :: IConst 255 :: IBin And
  :: ILSet 0 :: ILGet 5 :: ILGet 4 :: IBin Or :: ILSet 4 :: IConst 0 :: ILSet 3 :: IBlock f28_16 :: f28_17.
Definition f28_13 : list instr :=
  ILGet 3 :: IConst 255 :: IBin And :: IConst 224 :: IBin LtU :: IBrIf 0 :: IConst 0 :: ILSet 5 :: ILGet 1 ::
  ILSet 2 :: IBlock f28_14 :: f28_15.
Definition f28_11 : list instr :=
  ILGet 3 :: ILGet 1 :: IBin Eq :: IBrIf 1 :: ILGet 0 :: ILGet 3 :: IBin Add :: ILTee 2 :: ILoad8S 0 :: ILTee
  3 :: IConst 4294967295 :: IBin GtS :: IBrIf 0 :: IConst 0 :: ILSet 4 :: ILGet 0 :: ILGet 1 :: IBin Add ::
  ILTee 1 :: ILSet 0 :: IBlock f28_12 :: f28_13.
Definition f28_6 : list instr :=
  ILGet 2 :: ILGet 1 :: IBin Eq :: IBrIf 1 :: ILGet 1 :: IConst 1 :: IBin Add :: ILSet 4 :: IBlock f28_7 ::
  f28_11.
Definition f28_2 : list instr :=
  ILGet 2 :: ILGet 1 :: IBin GtU :: IBrIf 0 :: ILGet 3 :: ILGet 1 :: IBin GtU :: IBrIf 0 :: ILGet 2 :: ILGet 3
  :: IBin GtU :: IBrIf 0 :: IBlock f28_3 :: f28_6.
Definition f28_18 : list instr :=
  ICall 34 :: IUnreachable :: [].
Definition f28_1 : list instr :=
  IBlock f28_2 :: f28_18.
Definition f28_19 : list instr :=
  ICall 33 :: IUnreachable :: [].
Definition f28 : list instr :=
  IBlock f28_1 :: f28_19.

Definition f32_11 : list instr :=
  ILGet 0 :: IBrTable [0; 1; 2; 3; 4]%nat 0 :: [].
Definition f32_12 : list instr :=
  ILGet 2 :: ILGet 1 :: IBin Add :: ILTee 1 :: IConst 91227 :: IBin GtU :: IBrIf 7 :: ILGet 1 :: IConst 2 ::
  IBin Shl :: IConst 1149404 :: IBin Add :: ILSet 1 :: IBr 9 :: [].
Definition f32_10 : list instr :=
  IBlock f32_11 :: f32_12.
Definition f32_13 : list instr :=
  ILGet 2 :: ILGet 1 :: IBin Add :: ILTee 1 :: IConst 1500 :: IBin GtU :: IBrIf 5 :: ILGet 1 :: IConst 2 ::
  IBin Shl :: IConst 1514316 :: IBin Add :: ILSet 1 :: IBr 8 :: [].
Definition f32_9 : list instr :=
  IBlock f32_10 :: f32_13.
Definition f32_14 : list instr :=
  ILGet 2 :: ILGet 1 :: IBin Add :: ILTee 1 :: IConst 1411 :: IBin GtU :: IBrIf 3 :: ILGet 1 :: IConst 2 ::
  IBin Shl :: IConst 1520320 :: IBin Add :: ILSet 1 :: IBr 7 :: [].
Definition f32_8 : list instr :=
  IBlock f32_9 :: f32_14.
Definition f32_15 : list instr :=
  ILGet 2 :: ILGet 1 :: IBin Add :: ILTee 1 :: IConst 1070 :: IBin GtU :: IBrIf 1 :: ILGet 1 :: IConst 2 ::
  IBin Shl :: IConst 1525968 :: IBin Add :: ILSet 1 :: IBr 6 :: [].
Definition f32_7 : list instr :=
  IBlock f32_8 :: f32_15.
Definition f32_16 : list instr :=
  ILGet 2 :: ILGet 1 :: IBin Add :: ILTee 1 :: IConst 276441 :: IBin LtU :: IBrIf 4 :: ILGet 1 :: IConst
  276441 :: ICall 6 :: IUnreachable :: [].
Definition f32_6 : list instr :=
  IBlock f32_7 :: f32_16.
Definition f32_17 : list instr :=
  ILGet 1 :: IConst 1071 :: ICall 6 :: IUnreachable :: [].
Definition f32_5 : list instr :=
  IBlock f32_6 :: f32_17.
Definition f32_18 : list instr :=
  ILGet 1 :: IConst 1412 :: ICall 6 :: IUnreachable :: [].
Definition f32_4 : list instr :=
  IBlock f32_5 :: f32_18.
Definition f32_19 : list instr :=
  ILGet 1 :: IConst 1501 :: ICall 6 :: IUnreachable :: [].
Definition f32_3 : list instr :=
  IBlock f32_4 :: f32_19.
Definition f32_20 : list instr :=
  ILGet 1 :: IConst 91228 :: ICall 6 :: IUnreachable :: [].
Definition f32_2 : list instr :=
  IBlock f32_3 :: f32_20.
Definition f32_21 : list instr :=
  ILGet 1 :: IConst 2 :: IBin Shl :: IConst 1530252 :: IBin Add :: ILSet 1 :: [].
Definition f32_1 : list instr :=
  IBlock f32_2 :: f32_21.
Definition f32_22 : list instr :=
  ILGet 1 :: ILoad 0 :: [].
Definition f32 : list instr :=
  IBlock f32_1 :: f32_22.

Definition f33 : list instr :=
  ICall 34 :: IUnreachable :: [].

Definition f34 : list instr :=
  IUnreachable :: IUnreachable :: [].

Definition demo_funcs : list func := [
  Func 0 0 3 f0;
  Func 1 0 13 f1;
  Func 5 0 9 f2;
  Func 0 1 0 f3;
  Func 4 0 4 (lookup_code 24 1078080 1078176);
  Func 4 0 10 f5;
  Func 2 0 0 f6;
  Func 4 0 4 (lookup_code 4 1078048 1078064);
  Func 4 0 4 (lookup_code 4 1078016 1078032);
  Func 4 0 4 (lookup_code 4 1077984 1078000);
  Func 4 0 4 (lookup_code 16 1077856 1077920);
  Func 4 0 4 (lookup_code 33 1077592 1077724);
  Func 4 0 1 (pair_code 3540912106 1077576 1077584);
  Func 4 0 4 (lookup_code 16 1077448 1077512);
  Func 4 0 4 (lookup_code 192 1075912 1076680);
  Func 4 0 4 (lookup_code 73 1075328 1075620);
  Func 4 0 4 (lookup_code 4 1075296 1075312);
  Func 4 0 4 (lookup_code 14 1075184 1075240);
  Func 4 0 4 (lookup_code 4 1075152 1075168);
  Func 4 0 4 (lookup_code 4 1075120 1075136);
  Func 4 0 1 (pair_code 2177572458 1075104 1075112);
  Func 4 0 4 (lookup_code 303 1072680 1073892);
  Func 4 0 4 (lookup_code 19 1072528 1072604);
  Func 4 0 4 (lookup_code 1648 1059344 1065936);
  Func 4 0 4 (lookup_code 193 1057800 1058572);
  Func 4 0 4 (lookup_code 202 1056184 1056992);
  Func 4 0 4 (lookup_code 882 1049128 1052656);
  Func 6 0 18 f27;
  Func 4 0 2 f28;
  Func 4 0 4 (lookup_code 148 1148220 1145728);
  Func 4 0 4 (lookup_code 148 1148220 1148812);
  Func 4 0 4 (lookup_code 148 1148220 1146756);
  Func 3 1 0 f32;
  Func 0 0 0 f33;
  Func 0 0 0 f34].
