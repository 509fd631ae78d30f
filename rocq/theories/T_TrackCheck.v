(** The unit tests of test_track_check.py, run on the model (generated from the test file; these are tests, not proofs).
    Left out (arithmetic on a result): TestTrackQCMethodsIncrementPosition.test_ship_heading_east_at_60knots_at_latitude60_goes2degrees_in_1hour. *)
Require Import String ZArith QArith List Bool.
Require Import Verif.M_Base Verif.M_Report Verif.M_Voyage Verif.M_Track Verif.T_Num Verif.T_Check.
Import ListNotations.
Open Scope string_scope.
Open Scope Z_scope.

Definition TestTrackQCMethodsIncrementPosition_test_ship_heading_north_at_60knots_goes1degree_in_1hour : bool := Eval vm_compute in (let x1 := (increment_position earth (-90) (-90) (173624936800523 # 1562500000000) 0 2) in
  let x2 := (increment_position earth (-89) (-89) (173624936800523 # 1562500000000) 0 2) in
  let x3 := (increment_position earth (-88) (-88) (173624936800523 # 1562500000000) 0 2) in
  let x4 := (increment_position earth (-87) (-87) (173624936800523 # 1562500000000) 0 2) in
  let x5 := (increment_position earth (-86) (-86) (173624936800523 # 1562500000000) 0 2) in
  let x6 := (increment_position earth (-85) (-85) (173624936800523 # 1562500000000) 0 2) in
  let x7 := (increment_position earth (-84) (-84) (173624936800523 # 1562500000000) 0 2) in
  let x8 := (increment_position earth (-83) (-83) (173624936800523 # 1562500000000) 0 2) in
  let x9 := (increment_position earth (-82) (-82) (173624936800523 # 1562500000000) 0 2) in
  let x10 := (increment_position earth (-81) (-81) (173624936800523 # 1562500000000) 0 2) in
  let x11 := (increment_position earth (-80) (-80) (173624936800523 # 1562500000000) 0 2) in
  let x12 := (increment_position earth (-79) (-79) (173624936800523 # 1562500000000) 0 2) in
  let x13 := (increment_position earth (-78) (-78) (173624936800523 # 1562500000000) 0 2) in
  let x14 := (increment_position earth (-77) (-77) (173624936800523 # 1562500000000) 0 2) in
  let x15 := (increment_position earth (-76) (-76) (173624936800523 # 1562500000000) 0 2) in
  let x16 := (increment_position earth (-75) (-75) (173624936800523 # 1562500000000) 0 2) in
  let x17 := (increment_position earth (-74) (-74) (173624936800523 # 1562500000000) 0 2) in
  let x18 := (increment_position earth (-73) (-73) (173624936800523 # 1562500000000) 0 2) in
  let x19 := (increment_position earth (-72) (-72) (173624936800523 # 1562500000000) 0 2) in
  let x20 := (increment_position earth (-71) (-71) (173624936800523 # 1562500000000) 0 2) in
  let x21 := (increment_position earth (-70) (-70) (173624936800523 # 1562500000000) 0 2) in
  let x22 := (increment_position earth (-69) (-69) (173624936800523 # 1562500000000) 0 2) in
  let x23 := (increment_position earth (-68) (-68) (173624936800523 # 1562500000000) 0 2) in
  let x24 := (increment_position earth (-67) (-67) (173624936800523 # 1562500000000) 0 2) in
  let x25 := (increment_position earth (-66) (-66) (173624936800523 # 1562500000000) 0 2) in
  let x26 := (increment_position earth (-65) (-65) (173624936800523 # 1562500000000) 0 2) in
  let x27 := (increment_position earth (-64) (-64) (173624936800523 # 1562500000000) 0 2) in
  let x28 := (increment_position earth (-63) (-63) (173624936800523 # 1562500000000) 0 2) in
  let x29 := (increment_position earth (-62) (-62) (173624936800523 # 1562500000000) 0 2) in
  let x30 := (increment_position earth (-61) (-61) (173624936800523 # 1562500000000) 0 2) in
  let x31 := (increment_position earth (-60) (-60) (173624936800523 # 1562500000000) 0 2) in
  let x32 := (increment_position earth (-59) (-59) (173624936800523 # 1562500000000) 0 2) in
  let x33 := (increment_position earth (-58) (-58) (173624936800523 # 1562500000000) 0 2) in
  let x34 := (increment_position earth (-57) (-57) (173624936800523 # 1562500000000) 0 2) in
  let x35 := (increment_position earth (-56) (-56) (173624936800523 # 1562500000000) 0 2) in
  let x36 := (increment_position earth (-55) (-55) (173624936800523 # 1562500000000) 0 2) in
  let x37 := (increment_position earth (-54) (-54) (173624936800523 # 1562500000000) 0 2) in
  let x38 := (increment_position earth (-53) (-53) (173624936800523 # 1562500000000) 0 2) in
  let x39 := (increment_position earth (-52) (-52) (173624936800523 # 1562500000000) 0 2) in
  let x40 := (increment_position earth (-51) (-51) (173624936800523 # 1562500000000) 0 2) in
  let x41 := (increment_position earth (-50) (-50) (173624936800523 # 1562500000000) 0 2) in
  let x42 := (increment_position earth (-49) (-49) (173624936800523 # 1562500000000) 0 2) in
  let x43 := (increment_position earth (-48) (-48) (173624936800523 # 1562500000000) 0 2) in
  let x44 := (increment_position earth (-47) (-47) (173624936800523 # 1562500000000) 0 2) in
  let x45 := (increment_position earth (-46) (-46) (173624936800523 # 1562500000000) 0 2) in
  let x46 := (increment_position earth (-45) (-45) (173624936800523 # 1562500000000) 0 2) in
  let x47 := (increment_position earth (-44) (-44) (173624936800523 # 1562500000000) 0 2) in
  let x48 := (increment_position earth (-43) (-43) (173624936800523 # 1562500000000) 0 2) in
  let x49 := (increment_position earth (-42) (-42) (173624936800523 # 1562500000000) 0 2) in
  let x50 := (increment_position earth (-41) (-41) (173624936800523 # 1562500000000) 0 2) in
  let x51 := (increment_position earth (-40) (-40) (173624936800523 # 1562500000000) 0 2) in
  let x52 := (increment_position earth (-39) (-39) (173624936800523 # 1562500000000) 0 2) in
  let x53 := (increment_position earth (-38) (-38) (173624936800523 # 1562500000000) 0 2) in
  let x54 := (increment_position earth (-37) (-37) (173624936800523 # 1562500000000) 0 2) in
  let x55 := (increment_position earth (-36) (-36) (173624936800523 # 1562500000000) 0 2) in
  let x56 := (increment_position earth (-35) (-35) (173624936800523 # 1562500000000) 0 2) in
  let x57 := (increment_position earth (-34) (-34) (173624936800523 # 1562500000000) 0 2) in
  let x58 := (increment_position earth (-33) (-33) (173624936800523 # 1562500000000) 0 2) in
  let x59 := (increment_position earth (-32) (-32) (173624936800523 # 1562500000000) 0 2) in
  let x60 := (increment_position earth (-31) (-31) (173624936800523 # 1562500000000) 0 2) in
  let x61 := (increment_position earth (-30) (-30) (173624936800523 # 1562500000000) 0 2) in
  let x62 := (increment_position earth (-29) (-29) (173624936800523 # 1562500000000) 0 2) in
  let x63 := (increment_position earth (-28) (-28) (173624936800523 # 1562500000000) 0 2) in
  let x64 := (increment_position earth (-27) (-27) (173624936800523 # 1562500000000) 0 2) in
  let x65 := (increment_position earth (-26) (-26) (173624936800523 # 1562500000000) 0 2) in
  let x66 := (increment_position earth (-25) (-25) (173624936800523 # 1562500000000) 0 2) in
  let x67 := (increment_position earth (-24) (-24) (173624936800523 # 1562500000000) 0 2) in
  let x68 := (increment_position earth (-23) (-23) (173624936800523 # 1562500000000) 0 2) in
  let x69 := (increment_position earth (-22) (-22) (173624936800523 # 1562500000000) 0 2) in
  let x70 := (increment_position earth (-21) (-21) (173624936800523 # 1562500000000) 0 2) in
  let x71 := (increment_position earth (-20) (-20) (173624936800523 # 1562500000000) 0 2) in
  let x72 := (increment_position earth (-19) (-19) (173624936800523 # 1562500000000) 0 2) in
  let x73 := (increment_position earth (-18) (-18) (173624936800523 # 1562500000000) 0 2) in
  let x74 := (increment_position earth (-17) (-17) (173624936800523 # 1562500000000) 0 2) in
  let x75 := (increment_position earth (-16) (-16) (173624936800523 # 1562500000000) 0 2) in
  let x76 := (increment_position earth (-15) (-15) (173624936800523 # 1562500000000) 0 2) in
  let x77 := (increment_position earth (-14) (-14) (173624936800523 # 1562500000000) 0 2) in
  let x78 := (increment_position earth (-13) (-13) (173624936800523 # 1562500000000) 0 2) in
  let x79 := (increment_position earth (-12) (-12) (173624936800523 # 1562500000000) 0 2) in
  let x80 := (increment_position earth (-11) (-11) (173624936800523 # 1562500000000) 0 2) in
  let x81 := (increment_position earth (-10) (-10) (173624936800523 # 1562500000000) 0 2) in
  let x82 := (increment_position earth (-9) (-9) (173624936800523 # 1562500000000) 0 2) in
  let x83 := (increment_position earth (-8) (-8) (173624936800523 # 1562500000000) 0 2) in
  let x84 := (increment_position earth (-7) (-7) (173624936800523 # 1562500000000) 0 2) in
  let x85 := (increment_position earth (-6) (-6) (173624936800523 # 1562500000000) 0 2) in
  let x86 := (increment_position earth (-5) (-5) (173624936800523 # 1562500000000) 0 2) in
  let x87 := (increment_position earth (-4) (-4) (173624936800523 # 1562500000000) 0 2) in
  let x88 := (increment_position earth (-3) (-3) (173624936800523 # 1562500000000) 0 2) in
  let x89 := (increment_position earth (-2) (-2) (173624936800523 # 1562500000000) 0 2) in
  let x90 := (increment_position earth (-1) (-1) (173624936800523 # 1562500000000) 0 2) in
  let x91 := (increment_position earth 0 0 (173624936800523 # 1562500000000) 0 2) in
  let x92 := (increment_position earth 1 1 (173624936800523 # 1562500000000) 0 2) in
  let x93 := (increment_position earth 2 2 (173624936800523 # 1562500000000) 0 2) in
  let x94 := (increment_position earth 3 3 (173624936800523 # 1562500000000) 0 2) in
  let x95 := (increment_position earth 4 4 (173624936800523 # 1562500000000) 0 2) in
  let x96 := (increment_position earth 5 5 (173624936800523 # 1562500000000) 0 2) in
  let x97 := (increment_position earth 6 6 (173624936800523 # 1562500000000) 0 2) in
  let x98 := (increment_position earth 7 7 (173624936800523 # 1562500000000) 0 2) in
  let x99 := (increment_position earth 8 8 (173624936800523 # 1562500000000) 0 2) in
  let x100 := (increment_position earth 9 9 (173624936800523 # 1562500000000) 0 2) in
  let x101 := (increment_position earth 10 10 (173624936800523 # 1562500000000) 0 2) in
  let x102 := (increment_position earth 11 11 (173624936800523 # 1562500000000) 0 2) in
  let x103 := (increment_position earth 12 12 (173624936800523 # 1562500000000) 0 2) in
  let x104 := (increment_position earth 13 13 (173624936800523 # 1562500000000) 0 2) in
  let x105 := (increment_position earth 14 14 (173624936800523 # 1562500000000) 0 2) in
  let x106 := (increment_position earth 15 15 (173624936800523 # 1562500000000) 0 2) in
  let x107 := (increment_position earth 16 16 (173624936800523 # 1562500000000) 0 2) in
  let x108 := (increment_position earth 17 17 (173624936800523 # 1562500000000) 0 2) in
  let x109 := (increment_position earth 18 18 (173624936800523 # 1562500000000) 0 2) in
  let x110 := (increment_position earth 19 19 (173624936800523 # 1562500000000) 0 2) in
  let x111 := (increment_position earth 20 20 (173624936800523 # 1562500000000) 0 2) in
  let x112 := (increment_position earth 21 21 (173624936800523 # 1562500000000) 0 2) in
  let x113 := (increment_position earth 22 22 (173624936800523 # 1562500000000) 0 2) in
  let x114 := (increment_position earth 23 23 (173624936800523 # 1562500000000) 0 2) in
  let x115 := (increment_position earth 24 24 (173624936800523 # 1562500000000) 0 2) in
  let x116 := (increment_position earth 25 25 (173624936800523 # 1562500000000) 0 2) in
  let x117 := (increment_position earth 26 26 (173624936800523 # 1562500000000) 0 2) in
  let x118 := (increment_position earth 27 27 (173624936800523 # 1562500000000) 0 2) in
  let x119 := (increment_position earth 28 28 (173624936800523 # 1562500000000) 0 2) in
  let x120 := (increment_position earth 29 29 (173624936800523 # 1562500000000) 0 2) in
  let x121 := (increment_position earth 30 30 (173624936800523 # 1562500000000) 0 2) in
  let x122 := (increment_position earth 31 31 (173624936800523 # 1562500000000) 0 2) in
  let x123 := (increment_position earth 32 32 (173624936800523 # 1562500000000) 0 2) in
  let x124 := (increment_position earth 33 33 (173624936800523 # 1562500000000) 0 2) in
  let x125 := (increment_position earth 34 34 (173624936800523 # 1562500000000) 0 2) in
  let x126 := (increment_position earth 35 35 (173624936800523 # 1562500000000) 0 2) in
  let x127 := (increment_position earth 36 36 (173624936800523 # 1562500000000) 0 2) in
  let x128 := (increment_position earth 37 37 (173624936800523 # 1562500000000) 0 2) in
  let x129 := (increment_position earth 38 38 (173624936800523 # 1562500000000) 0 2) in
  let x130 := (increment_position earth 39 39 (173624936800523 # 1562500000000) 0 2) in
  let x131 := (increment_position earth 40 40 (173624936800523 # 1562500000000) 0 2) in
  let x132 := (increment_position earth 41 41 (173624936800523 # 1562500000000) 0 2) in
  let x133 := (increment_position earth 42 42 (173624936800523 # 1562500000000) 0 2) in
  let x134 := (increment_position earth 43 43 (173624936800523 # 1562500000000) 0 2) in
  let x135 := (increment_position earth 44 44 (173624936800523 # 1562500000000) 0 2) in
  let x136 := (increment_position earth 45 45 (173624936800523 # 1562500000000) 0 2) in
  let x137 := (increment_position earth 46 46 (173624936800523 # 1562500000000) 0 2) in
  let x138 := (increment_position earth 47 47 (173624936800523 # 1562500000000) 0 2) in
  let x139 := (increment_position earth 48 48 (173624936800523 # 1562500000000) 0 2) in
  let x140 := (increment_position earth 49 49 (173624936800523 # 1562500000000) 0 2) in
  let x141 := (increment_position earth 50 50 (173624936800523 # 1562500000000) 0 2) in
  let x142 := (increment_position earth 51 51 (173624936800523 # 1562500000000) 0 2) in
  let x143 := (increment_position earth 52 52 (173624936800523 # 1562500000000) 0 2) in
  let x144 := (increment_position earth 53 53 (173624936800523 # 1562500000000) 0 2) in
  let x145 := (increment_position earth 54 54 (173624936800523 # 1562500000000) 0 2) in
  let x146 := (increment_position earth 55 55 (173624936800523 # 1562500000000) 0 2) in
  let x147 := (increment_position earth 56 56 (173624936800523 # 1562500000000) 0 2) in
  let x148 := (increment_position earth 57 57 (173624936800523 # 1562500000000) 0 2) in
  let x149 := (increment_position earth 58 58 (173624936800523 # 1562500000000) 0 2) in
  let x150 := (increment_position earth 59 59 (173624936800523 # 1562500000000) 0 2) in
  let x151 := (increment_position earth 60 60 (173624936800523 # 1562500000000) 0 2) in
  let x152 := (increment_position earth 61 61 (173624936800523 # 1562500000000) 0 2) in
  let x153 := (increment_position earth 62 62 (173624936800523 # 1562500000000) 0 2) in
  let x154 := (increment_position earth 63 63 (173624936800523 # 1562500000000) 0 2) in
  let x155 := (increment_position earth 64 64 (173624936800523 # 1562500000000) 0 2) in
  let x156 := (increment_position earth 65 65 (173624936800523 # 1562500000000) 0 2) in
  let x157 := (increment_position earth 66 66 (173624936800523 # 1562500000000) 0 2) in
  let x158 := (increment_position earth 67 67 (173624936800523 # 1562500000000) 0 2) in
  let x159 := (increment_position earth 68 68 (173624936800523 # 1562500000000) 0 2) in
  let x160 := (increment_position earth 69 69 (173624936800523 # 1562500000000) 0 2) in
  let x161 := (increment_position earth 70 70 (173624936800523 # 1562500000000) 0 2) in
  let x162 := (increment_position earth 71 71 (173624936800523 # 1562500000000) 0 2) in
  let x163 := (increment_position earth 72 72 (173624936800523 # 1562500000000) 0 2) in
  let x164 := (increment_position earth 73 73 (173624936800523 # 1562500000000) 0 2) in
  let x165 := (increment_position earth 74 74 (173624936800523 # 1562500000000) 0 2) in
  let x166 := (increment_position earth 75 75 (173624936800523 # 1562500000000) 0 2) in
  let x167 := (increment_position earth 76 76 (173624936800523 # 1562500000000) 0 2) in
  let x168 := (increment_position earth 77 77 (173624936800523 # 1562500000000) 0 2) in
  let x169 := (increment_position earth 78 78 (173624936800523 # 1562500000000) 0 2) in
  let x170 := (increment_position earth 79 79 (173624936800523 # 1562500000000) 0 2) in
  let x171 := (increment_position earth 80 80 (173624936800523 # 1562500000000) 0 2) in
  let x172 := (increment_position earth 81 81 (173624936800523 # 1562500000000) 0 2) in
  let x173 := (increment_position earth 82 82 (173624936800523 # 1562500000000) 0 2) in
  let x174 := (increment_position earth 83 83 (173624936800523 # 1562500000000) 0 2) in
  let x175 := (increment_position earth 84 84 (173624936800523 # 1562500000000) 0 2) in
  let x176 := (increment_position earth 85 85 (173624936800523 # 1562500000000) 0 2) in
  let x177 := (increment_position earth 86 86 (173624936800523 # 1562500000000) 0 2) in
  let x178 := (increment_position earth 87 87 (173624936800523 # 1562500000000) 0 2) in
  let x179 := (increment_position earth 88 88 (173624936800523 # 1562500000000) 0 2) in
  let x180 := (increment_position earth 89 89 (173624936800523 # 1562500000000) 0 2) in
  all [near (1 # 1000) (ofQ (snd x1)) (VNum 0);
  near (1 # 1000) (ofQ (fst x1)) (VNum 1);
  near (1 # 1000) (ofQ (snd x2)) (VNum 0);
  near (1 # 1000) (ofQ (fst x2)) (VNum 1);
  near (1 # 1000) (ofQ (snd x3)) (VNum 0);
  near (1 # 1000) (ofQ (fst x3)) (VNum 1);
  near (1 # 1000) (ofQ (snd x4)) (VNum 0);
  near (1 # 1000) (ofQ (fst x4)) (VNum 1);
  near (1 # 1000) (ofQ (snd x5)) (VNum 0);
  near (1 # 1000) (ofQ (fst x5)) (VNum 1);
  near (1 # 1000) (ofQ (snd x6)) (VNum 0);
  near (1 # 1000) (ofQ (fst x6)) (VNum 1);
  near (1 # 1000) (ofQ (snd x7)) (VNum 0);
  near (1 # 1000) (ofQ (fst x7)) (VNum 1);
  near (1 # 1000) (ofQ (snd x8)) (VNum 0);
  near (1 # 1000) (ofQ (fst x8)) (VNum 1);
  near (1 # 1000) (ofQ (snd x9)) (VNum 0);
  near (1 # 1000) (ofQ (fst x9)) (VNum 1);
  near (1 # 1000) (ofQ (snd x10)) (VNum 0);
  near (1 # 1000) (ofQ (fst x10)) (VNum 1);
  near (1 # 1000) (ofQ (snd x11)) (VNum 0);
  near (1 # 1000) (ofQ (fst x11)) (VNum 1);
  near (1 # 1000) (ofQ (snd x12)) (VNum 0);
  near (1 # 1000) (ofQ (fst x12)) (VNum 1);
  near (1 # 1000) (ofQ (snd x13)) (VNum 0);
  near (1 # 1000) (ofQ (fst x13)) (VNum 1);
  near (1 # 1000) (ofQ (snd x14)) (VNum 0);
  near (1 # 1000) (ofQ (fst x14)) (VNum 1);
  near (1 # 1000) (ofQ (snd x15)) (VNum 0);
  near (1 # 1000) (ofQ (fst x15)) (VNum 1);
  near (1 # 1000) (ofQ (snd x16)) (VNum 0);
  near (1 # 1000) (ofQ (fst x16)) (VNum 1);
  near (1 # 1000) (ofQ (snd x17)) (VNum 0);
  near (1 # 1000) (ofQ (fst x17)) (VNum 1);
  near (1 # 1000) (ofQ (snd x18)) (VNum 0);
  near (1 # 1000) (ofQ (fst x18)) (VNum 1);
  near (1 # 1000) (ofQ (snd x19)) (VNum 0);
  near (1 # 1000) (ofQ (fst x19)) (VNum 1);
  near (1 # 1000) (ofQ (snd x20)) (VNum 0);
  near (1 # 1000) (ofQ (fst x20)) (VNum 1);
  near (1 # 1000) (ofQ (snd x21)) (VNum 0);
  near (1 # 1000) (ofQ (fst x21)) (VNum 1);
  near (1 # 1000) (ofQ (snd x22)) (VNum 0);
  near (1 # 1000) (ofQ (fst x22)) (VNum 1);
  near (1 # 1000) (ofQ (snd x23)) (VNum 0);
  near (1 # 1000) (ofQ (fst x23)) (VNum 1);
  near (1 # 1000) (ofQ (snd x24)) (VNum 0);
  near (1 # 1000) (ofQ (fst x24)) (VNum 1);
  near (1 # 1000) (ofQ (snd x25)) (VNum 0);
  near (1 # 1000) (ofQ (fst x25)) (VNum 1);
  near (1 # 1000) (ofQ (snd x26)) (VNum 0);
  near (1 # 1000) (ofQ (fst x26)) (VNum 1);
  near (1 # 1000) (ofQ (snd x27)) (VNum 0);
  near (1 # 1000) (ofQ (fst x27)) (VNum 1);
  near (1 # 1000) (ofQ (snd x28)) (VNum 0);
  near (1 # 1000) (ofQ (fst x28)) (VNum 1);
  near (1 # 1000) (ofQ (snd x29)) (VNum 0);
  near (1 # 1000) (ofQ (fst x29)) (VNum 1);
  near (1 # 1000) (ofQ (snd x30)) (VNum 0);
  near (1 # 1000) (ofQ (fst x30)) (VNum 1);
  near (1 # 1000) (ofQ (snd x31)) (VNum 0);
  near (1 # 1000) (ofQ (fst x31)) (VNum 1);
  near (1 # 1000) (ofQ (snd x32)) (VNum 0);
  near (1 # 1000) (ofQ (fst x32)) (VNum 1);
  near (1 # 1000) (ofQ (snd x33)) (VNum 0);
  near (1 # 1000) (ofQ (fst x33)) (VNum 1);
  near (1 # 1000) (ofQ (snd x34)) (VNum 0);
  near (1 # 1000) (ofQ (fst x34)) (VNum 1);
  near (1 # 1000) (ofQ (snd x35)) (VNum 0);
  near (1 # 1000) (ofQ (fst x35)) (VNum 1);
  near (1 # 1000) (ofQ (snd x36)) (VNum 0);
  near (1 # 1000) (ofQ (fst x36)) (VNum 1);
  near (1 # 1000) (ofQ (snd x37)) (VNum 0);
  near (1 # 1000) (ofQ (fst x37)) (VNum 1);
  near (1 # 1000) (ofQ (snd x38)) (VNum 0);
  near (1 # 1000) (ofQ (fst x38)) (VNum 1);
  near (1 # 1000) (ofQ (snd x39)) (VNum 0);
  near (1 # 1000) (ofQ (fst x39)) (VNum 1);
  near (1 # 1000) (ofQ (snd x40)) (VNum 0);
  near (1 # 1000) (ofQ (fst x40)) (VNum 1);
  near (1 # 1000) (ofQ (snd x41)) (VNum 0);
  near (1 # 1000) (ofQ (fst x41)) (VNum 1);
  near (1 # 1000) (ofQ (snd x42)) (VNum 0);
  near (1 # 1000) (ofQ (fst x42)) (VNum 1);
  near (1 # 1000) (ofQ (snd x43)) (VNum 0);
  near (1 # 1000) (ofQ (fst x43)) (VNum 1);
  near (1 # 1000) (ofQ (snd x44)) (VNum 0);
  near (1 # 1000) (ofQ (fst x44)) (VNum 1);
  near (1 # 1000) (ofQ (snd x45)) (VNum 0);
  near (1 # 1000) (ofQ (fst x45)) (VNum 1);
  near (1 # 1000) (ofQ (snd x46)) (VNum 0);
  near (1 # 1000) (ofQ (fst x46)) (VNum 1);
  near (1 # 1000) (ofQ (snd x47)) (VNum 0);
  near (1 # 1000) (ofQ (fst x47)) (VNum 1);
  near (1 # 1000) (ofQ (snd x48)) (VNum 0);
  near (1 # 1000) (ofQ (fst x48)) (VNum 1);
  near (1 # 1000) (ofQ (snd x49)) (VNum 0);
  near (1 # 1000) (ofQ (fst x49)) (VNum 1);
  near (1 # 1000) (ofQ (snd x50)) (VNum 0);
  near (1 # 1000) (ofQ (fst x50)) (VNum 1);
  near (1 # 1000) (ofQ (snd x51)) (VNum 0);
  near (1 # 1000) (ofQ (fst x51)) (VNum 1);
  near (1 # 1000) (ofQ (snd x52)) (VNum 0);
  near (1 # 1000) (ofQ (fst x52)) (VNum 1);
  near (1 # 1000) (ofQ (snd x53)) (VNum 0);
  near (1 # 1000) (ofQ (fst x53)) (VNum 1);
  near (1 # 1000) (ofQ (snd x54)) (VNum 0);
  near (1 # 1000) (ofQ (fst x54)) (VNum 1);
  near (1 # 1000) (ofQ (snd x55)) (VNum 0);
  near (1 # 1000) (ofQ (fst x55)) (VNum 1);
  near (1 # 1000) (ofQ (snd x56)) (VNum 0);
  near (1 # 1000) (ofQ (fst x56)) (VNum 1);
  near (1 # 1000) (ofQ (snd x57)) (VNum 0);
  near (1 # 1000) (ofQ (fst x57)) (VNum 1);
  near (1 # 1000) (ofQ (snd x58)) (VNum 0);
  near (1 # 1000) (ofQ (fst x58)) (VNum 1);
  near (1 # 1000) (ofQ (snd x59)) (VNum 0);
  near (1 # 1000) (ofQ (fst x59)) (VNum 1);
  near (1 # 1000) (ofQ (snd x60)) (VNum 0);
  near (1 # 1000) (ofQ (fst x60)) (VNum 1);
  near (1 # 1000) (ofQ (snd x61)) (VNum 0);
  near (1 # 1000) (ofQ (fst x61)) (VNum 1);
  near (1 # 1000) (ofQ (snd x62)) (VNum 0);
  near (1 # 1000) (ofQ (fst x62)) (VNum 1);
  near (1 # 1000) (ofQ (snd x63)) (VNum 0);
  near (1 # 1000) (ofQ (fst x63)) (VNum 1);
  near (1 # 1000) (ofQ (snd x64)) (VNum 0);
  near (1 # 1000) (ofQ (fst x64)) (VNum 1);
  near (1 # 1000) (ofQ (snd x65)) (VNum 0);
  near (1 # 1000) (ofQ (fst x65)) (VNum 1);
  near (1 # 1000) (ofQ (snd x66)) (VNum 0);
  near (1 # 1000) (ofQ (fst x66)) (VNum 1);
  near (1 # 1000) (ofQ (snd x67)) (VNum 0);
  near (1 # 1000) (ofQ (fst x67)) (VNum 1);
  near (1 # 1000) (ofQ (snd x68)) (VNum 0);
  near (1 # 1000) (ofQ (fst x68)) (VNum 1);
  near (1 # 1000) (ofQ (snd x69)) (VNum 0);
  near (1 # 1000) (ofQ (fst x69)) (VNum 1);
  near (1 # 1000) (ofQ (snd x70)) (VNum 0);
  near (1 # 1000) (ofQ (fst x70)) (VNum 1);
  near (1 # 1000) (ofQ (snd x71)) (VNum 0);
  near (1 # 1000) (ofQ (fst x71)) (VNum 1);
  near (1 # 1000) (ofQ (snd x72)) (VNum 0);
  near (1 # 1000) (ofQ (fst x72)) (VNum 1);
  near (1 # 1000) (ofQ (snd x73)) (VNum 0);
  near (1 # 1000) (ofQ (fst x73)) (VNum 1);
  near (1 # 1000) (ofQ (snd x74)) (VNum 0);
  near (1 # 1000) (ofQ (fst x74)) (VNum 1);
  near (1 # 1000) (ofQ (snd x75)) (VNum 0);
  near (1 # 1000) (ofQ (fst x75)) (VNum 1);
  near (1 # 1000) (ofQ (snd x76)) (VNum 0);
  near (1 # 1000) (ofQ (fst x76)) (VNum 1);
  near (1 # 1000) (ofQ (snd x77)) (VNum 0);
  near (1 # 1000) (ofQ (fst x77)) (VNum 1);
  near (1 # 1000) (ofQ (snd x78)) (VNum 0);
  near (1 # 1000) (ofQ (fst x78)) (VNum 1);
  near (1 # 1000) (ofQ (snd x79)) (VNum 0);
  near (1 # 1000) (ofQ (fst x79)) (VNum 1);
  near (1 # 1000) (ofQ (snd x80)) (VNum 0);
  near (1 # 1000) (ofQ (fst x80)) (VNum 1);
  near (1 # 1000) (ofQ (snd x81)) (VNum 0);
  near (1 # 1000) (ofQ (fst x81)) (VNum 1);
  near (1 # 1000) (ofQ (snd x82)) (VNum 0);
  near (1 # 1000) (ofQ (fst x82)) (VNum 1);
  near (1 # 1000) (ofQ (snd x83)) (VNum 0);
  near (1 # 1000) (ofQ (fst x83)) (VNum 1);
  near (1 # 1000) (ofQ (snd x84)) (VNum 0);
  near (1 # 1000) (ofQ (fst x84)) (VNum 1);
  near (1 # 1000) (ofQ (snd x85)) (VNum 0);
  near (1 # 1000) (ofQ (fst x85)) (VNum 1);
  near (1 # 1000) (ofQ (snd x86)) (VNum 0);
  near (1 # 1000) (ofQ (fst x86)) (VNum 1);
  near (1 # 1000) (ofQ (snd x87)) (VNum 0);
  near (1 # 1000) (ofQ (fst x87)) (VNum 1);
  near (1 # 1000) (ofQ (snd x88)) (VNum 0);
  near (1 # 1000) (ofQ (fst x88)) (VNum 1);
  near (1 # 1000) (ofQ (snd x89)) (VNum 0);
  near (1 # 1000) (ofQ (fst x89)) (VNum 1);
  near (1 # 1000) (ofQ (snd x90)) (VNum 0);
  near (1 # 1000) (ofQ (fst x90)) (VNum 1);
  near (1 # 1000) (ofQ (snd x91)) (VNum 0);
  near (1 # 1000) (ofQ (fst x91)) (VNum 1);
  near (1 # 1000) (ofQ (snd x92)) (VNum 0);
  near (1 # 1000) (ofQ (fst x92)) (VNum 1);
  near (1 # 1000) (ofQ (snd x93)) (VNum 0);
  near (1 # 1000) (ofQ (fst x93)) (VNum 1);
  near (1 # 1000) (ofQ (snd x94)) (VNum 0);
  near (1 # 1000) (ofQ (fst x94)) (VNum 1);
  near (1 # 1000) (ofQ (snd x95)) (VNum 0);
  near (1 # 1000) (ofQ (fst x95)) (VNum 1);
  near (1 # 1000) (ofQ (snd x96)) (VNum 0);
  near (1 # 1000) (ofQ (fst x96)) (VNum 1);
  near (1 # 1000) (ofQ (snd x97)) (VNum 0);
  near (1 # 1000) (ofQ (fst x97)) (VNum 1);
  near (1 # 1000) (ofQ (snd x98)) (VNum 0);
  near (1 # 1000) (ofQ (fst x98)) (VNum 1);
  near (1 # 1000) (ofQ (snd x99)) (VNum 0);
  near (1 # 1000) (ofQ (fst x99)) (VNum 1);
  near (1 # 1000) (ofQ (snd x100)) (VNum 0);
  near (1 # 1000) (ofQ (fst x100)) (VNum 1);
  near (1 # 1000) (ofQ (snd x101)) (VNum 0);
  near (1 # 1000) (ofQ (fst x101)) (VNum 1);
  near (1 # 1000) (ofQ (snd x102)) (VNum 0);
  near (1 # 1000) (ofQ (fst x102)) (VNum 1);
  near (1 # 1000) (ofQ (snd x103)) (VNum 0);
  near (1 # 1000) (ofQ (fst x103)) (VNum 1);
  near (1 # 1000) (ofQ (snd x104)) (VNum 0);
  near (1 # 1000) (ofQ (fst x104)) (VNum 1);
  near (1 # 1000) (ofQ (snd x105)) (VNum 0);
  near (1 # 1000) (ofQ (fst x105)) (VNum 1);
  near (1 # 1000) (ofQ (snd x106)) (VNum 0);
  near (1 # 1000) (ofQ (fst x106)) (VNum 1);
  near (1 # 1000) (ofQ (snd x107)) (VNum 0);
  near (1 # 1000) (ofQ (fst x107)) (VNum 1);
  near (1 # 1000) (ofQ (snd x108)) (VNum 0);
  near (1 # 1000) (ofQ (fst x108)) (VNum 1);
  near (1 # 1000) (ofQ (snd x109)) (VNum 0);
  near (1 # 1000) (ofQ (fst x109)) (VNum 1);
  near (1 # 1000) (ofQ (snd x110)) (VNum 0);
  near (1 # 1000) (ofQ (fst x110)) (VNum 1);
  near (1 # 1000) (ofQ (snd x111)) (VNum 0);
  near (1 # 1000) (ofQ (fst x111)) (VNum 1);
  near (1 # 1000) (ofQ (snd x112)) (VNum 0);
  near (1 # 1000) (ofQ (fst x112)) (VNum 1);
  near (1 # 1000) (ofQ (snd x113)) (VNum 0);
  near (1 # 1000) (ofQ (fst x113)) (VNum 1);
  near (1 # 1000) (ofQ (snd x114)) (VNum 0);
  near (1 # 1000) (ofQ (fst x114)) (VNum 1);
  near (1 # 1000) (ofQ (snd x115)) (VNum 0);
  near (1 # 1000) (ofQ (fst x115)) (VNum 1);
  near (1 # 1000) (ofQ (snd x116)) (VNum 0);
  near (1 # 1000) (ofQ (fst x116)) (VNum 1);
  near (1 # 1000) (ofQ (snd x117)) (VNum 0);
  near (1 # 1000) (ofQ (fst x117)) (VNum 1);
  near (1 # 1000) (ofQ (snd x118)) (VNum 0);
  near (1 # 1000) (ofQ (fst x118)) (VNum 1);
  near (1 # 1000) (ofQ (snd x119)) (VNum 0);
  near (1 # 1000) (ofQ (fst x119)) (VNum 1);
  near (1 # 1000) (ofQ (snd x120)) (VNum 0);
  near (1 # 1000) (ofQ (fst x120)) (VNum 1);
  near (1 # 1000) (ofQ (snd x121)) (VNum 0);
  near (1 # 1000) (ofQ (fst x121)) (VNum 1);
  near (1 # 1000) (ofQ (snd x122)) (VNum 0);
  near (1 # 1000) (ofQ (fst x122)) (VNum 1);
  near (1 # 1000) (ofQ (snd x123)) (VNum 0);
  near (1 # 1000) (ofQ (fst x123)) (VNum 1);
  near (1 # 1000) (ofQ (snd x124)) (VNum 0);
  near (1 # 1000) (ofQ (fst x124)) (VNum 1);
  near (1 # 1000) (ofQ (snd x125)) (VNum 0);
  near (1 # 1000) (ofQ (fst x125)) (VNum 1);
  near (1 # 1000) (ofQ (snd x126)) (VNum 0);
  near (1 # 1000) (ofQ (fst x126)) (VNum 1);
  near (1 # 1000) (ofQ (snd x127)) (VNum 0);
  near (1 # 1000) (ofQ (fst x127)) (VNum 1);
  near (1 # 1000) (ofQ (snd x128)) (VNum 0);
  near (1 # 1000) (ofQ (fst x128)) (VNum 1);
  near (1 # 1000) (ofQ (snd x129)) (VNum 0);
  near (1 # 1000) (ofQ (fst x129)) (VNum 1);
  near (1 # 1000) (ofQ (snd x130)) (VNum 0);
  near (1 # 1000) (ofQ (fst x130)) (VNum 1);
  near (1 # 1000) (ofQ (snd x131)) (VNum 0);
  near (1 # 1000) (ofQ (fst x131)) (VNum 1);
  near (1 # 1000) (ofQ (snd x132)) (VNum 0);
  near (1 # 1000) (ofQ (fst x132)) (VNum 1);
  near (1 # 1000) (ofQ (snd x133)) (VNum 0);
  near (1 # 1000) (ofQ (fst x133)) (VNum 1);
  near (1 # 1000) (ofQ (snd x134)) (VNum 0);
  near (1 # 1000) (ofQ (fst x134)) (VNum 1);
  near (1 # 1000) (ofQ (snd x135)) (VNum 0);
  near (1 # 1000) (ofQ (fst x135)) (VNum 1);
  near (1 # 1000) (ofQ (snd x136)) (VNum 0);
  near (1 # 1000) (ofQ (fst x136)) (VNum 1);
  near (1 # 1000) (ofQ (snd x137)) (VNum 0);
  near (1 # 1000) (ofQ (fst x137)) (VNum 1);
  near (1 # 1000) (ofQ (snd x138)) (VNum 0);
  near (1 # 1000) (ofQ (fst x138)) (VNum 1);
  near (1 # 1000) (ofQ (snd x139)) (VNum 0);
  near (1 # 1000) (ofQ (fst x139)) (VNum 1);
  near (1 # 1000) (ofQ (snd x140)) (VNum 0);
  near (1 # 1000) (ofQ (fst x140)) (VNum 1);
  near (1 # 1000) (ofQ (snd x141)) (VNum 0);
  near (1 # 1000) (ofQ (fst x141)) (VNum 1);
  near (1 # 1000) (ofQ (snd x142)) (VNum 0);
  near (1 # 1000) (ofQ (fst x142)) (VNum 1);
  near (1 # 1000) (ofQ (snd x143)) (VNum 0);
  near (1 # 1000) (ofQ (fst x143)) (VNum 1);
  near (1 # 1000) (ofQ (snd x144)) (VNum 0);
  near (1 # 1000) (ofQ (fst x144)) (VNum 1);
  near (1 # 1000) (ofQ (snd x145)) (VNum 0);
  near (1 # 1000) (ofQ (fst x145)) (VNum 1);
  near (1 # 1000) (ofQ (snd x146)) (VNum 0);
  near (1 # 1000) (ofQ (fst x146)) (VNum 1);
  near (1 # 1000) (ofQ (snd x147)) (VNum 0);
  near (1 # 1000) (ofQ (fst x147)) (VNum 1);
  near (1 # 1000) (ofQ (snd x148)) (VNum 0);
  near (1 # 1000) (ofQ (fst x148)) (VNum 1);
  near (1 # 1000) (ofQ (snd x149)) (VNum 0);
  near (1 # 1000) (ofQ (fst x149)) (VNum 1);
  near (1 # 1000) (ofQ (snd x150)) (VNum 0);
  near (1 # 1000) (ofQ (fst x150)) (VNum 1);
  near (1 # 1000) (ofQ (snd x151)) (VNum 0);
  near (1 # 1000) (ofQ (fst x151)) (VNum 1);
  near (1 # 1000) (ofQ (snd x152)) (VNum 0);
  near (1 # 1000) (ofQ (fst x152)) (VNum 1);
  near (1 # 1000) (ofQ (snd x153)) (VNum 0);
  near (1 # 1000) (ofQ (fst x153)) (VNum 1);
  near (1 # 1000) (ofQ (snd x154)) (VNum 0);
  near (1 # 1000) (ofQ (fst x154)) (VNum 1);
  near (1 # 1000) (ofQ (snd x155)) (VNum 0);
  near (1 # 1000) (ofQ (fst x155)) (VNum 1);
  near (1 # 1000) (ofQ (snd x156)) (VNum 0);
  near (1 # 1000) (ofQ (fst x156)) (VNum 1);
  near (1 # 1000) (ofQ (snd x157)) (VNum 0);
  near (1 # 1000) (ofQ (fst x157)) (VNum 1);
  near (1 # 1000) (ofQ (snd x158)) (VNum 0);
  near (1 # 1000) (ofQ (fst x158)) (VNum 1);
  near (1 # 1000) (ofQ (snd x159)) (VNum 0);
  near (1 # 1000) (ofQ (fst x159)) (VNum 1);
  near (1 # 1000) (ofQ (snd x160)) (VNum 0);
  near (1 # 1000) (ofQ (fst x160)) (VNum 1);
  near (1 # 1000) (ofQ (snd x161)) (VNum 0);
  near (1 # 1000) (ofQ (fst x161)) (VNum 1);
  near (1 # 1000) (ofQ (snd x162)) (VNum 0);
  near (1 # 1000) (ofQ (fst x162)) (VNum 1);
  near (1 # 1000) (ofQ (snd x163)) (VNum 0);
  near (1 # 1000) (ofQ (fst x163)) (VNum 1);
  near (1 # 1000) (ofQ (snd x164)) (VNum 0);
  near (1 # 1000) (ofQ (fst x164)) (VNum 1);
  near (1 # 1000) (ofQ (snd x165)) (VNum 0);
  near (1 # 1000) (ofQ (fst x165)) (VNum 1);
  near (1 # 1000) (ofQ (snd x166)) (VNum 0);
  near (1 # 1000) (ofQ (fst x166)) (VNum 1);
  near (1 # 1000) (ofQ (snd x167)) (VNum 0);
  near (1 # 1000) (ofQ (fst x167)) (VNum 1);
  near (1 # 1000) (ofQ (snd x168)) (VNum 0);
  near (1 # 1000) (ofQ (fst x168)) (VNum 1);
  near (1 # 1000) (ofQ (snd x169)) (VNum 0);
  near (1 # 1000) (ofQ (fst x169)) (VNum 1);
  near (1 # 1000) (ofQ (snd x170)) (VNum 0);
  near (1 # 1000) (ofQ (fst x170)) (VNum 1);
  near (1 # 1000) (ofQ (snd x171)) (VNum 0);
  near (1 # 1000) (ofQ (fst x171)) (VNum 1);
  near (1 # 1000) (ofQ (snd x172)) (VNum 0);
  near (1 # 1000) (ofQ (fst x172)) (VNum 1);
  near (1 # 1000) (ofQ (snd x173)) (VNum 0);
  near (1 # 1000) (ofQ (fst x173)) (VNum 1);
  near (1 # 1000) (ofQ (snd x174)) (VNum 0);
  near (1 # 1000) (ofQ (fst x174)) (VNum 1);
  near (1 # 1000) (ofQ (snd x175)) (VNum 0);
  near (1 # 1000) (ofQ (fst x175)) (VNum 1);
  near (1 # 1000) (ofQ (snd x176)) (VNum 0);
  near (1 # 1000) (ofQ (fst x176)) (VNum 1);
  near (1 # 1000) (ofQ (snd x177)) (VNum 0);
  near (1 # 1000) (ofQ (fst x177)) (VNum 1);
  near (1 # 1000) (ofQ (snd x178)) (VNum 0);
  near (1 # 1000) (ofQ (fst x178)) (VNum 1);
  near (1 # 1000) (ofQ (snd x179)) (VNum 0);
  near (1 # 1000) (ofQ (fst x179)) (VNum 1);
  near (1 # 1000) (ofQ (snd x180)) (VNum 0);
  near (1 # 1000) (ofQ (fst x180)) (VNum 1)]).
Example TestTrackQCMethodsIncrementPosition_test_ship_heading_north_at_60knots_goes1degree_in_1hour_is : TestTrackQCMethodsIncrementPosition_test_ship_heading_north_at_60knots_goes1degree_in_1hour = true.
Proof. reflexivity. Qed.
Definition TestTrackQCMethodsIncrementPosition_test_ship_heading_east_at_60knots_goes1degree_in_1hour : bool := Eval vm_compute in (let x1 := (increment_position earth 0 0 (173624936800523 # 1562500000000) 90 2) in
  all [near (1 # 1000) (ofQ (snd x1)) (VNum 1);
  near (1 # 1000) (ofQ (fst x1)) (VNum 0)]).
Example TestTrackQCMethodsIncrementPosition_test_ship_heading_east_at_60knots_goes1degree_in_1hour_is : TestTrackQCMethodsIncrementPosition_test_ship_heading_east_at_60knots_goes1degree_in_1hour = true.
Proof. reflexivity. Qed.
Definition TestTrackQCMethodsIncrementPosition_test_ship_goes_southwest : bool := Eval vm_compute in (let x1 := (increment_position earth 0 0 (173624936800523 # 1562500000000) 225 2) in
  all [near (1 # 1000) (ofQ (snd x1)) (VNum (-282842712474619 # 400000000000000));
  near (1 # 1000) (ofQ (fst x1)) (VNum (-282842712474619 # 400000000000000))]).
Example TestTrackQCMethodsIncrementPosition_test_ship_goes_southwest_is : TestTrackQCMethodsIncrementPosition_test_ship_goes_southwest = true.
Proof. reflexivity. Qed.
Definition TestTrackQCMethodsModesp_test_noinput : bool := Eval vm_compute in (all [same VNone (rs (opt ofQ) (modesp []))]).
Example TestTrackQCMethodsModesp_test_noinput_is : TestTrackQCMethodsModesp_test_noinput = true.
Proof. reflexivity. Qed.
Definition TestTrackQCMethodsModesp_test_one_input : bool := Eval vm_compute in (all [same VNone (rs (opt ofQ) (modesp [(Some 17%Q)]))]).
Example TestTrackQCMethodsModesp_test_one_input_is : TestTrackQCMethodsModesp_test_one_input = true.
Proof. reflexivity. Qed.
Definition TestTrackQCMethodsModesp_test_single_speed_input_over8point5 : bool := Eval vm_compute in (all [near (1 # 1000000000000) (VNum (1805699342725439 # 50000000000000)) (rs (opt ofQ) (modesp [(Some (3703998651744491 # 100000000000000)%Q); (Some (3703998651744491 # 100000000000000)%Q); (Some (3703998651744491 # 100000000000000)%Q); (Some (3703998651744491 # 100000000000000)%Q); (Some (3703998651744491 # 100000000000000)%Q); (Some (3703998651744491 # 100000000000000)%Q)]))]).
Example TestTrackQCMethodsModesp_test_single_speed_input_over8point5_is : TestTrackQCMethodsModesp_test_single_speed_input_over8point5 = true.
Proof. reflexivity. Qed.
Definition TestTrackQCMethodsModesp_test_single_speed_input_under8point5 : bool := Eval vm_compute in (all [near (1 # 1000000000000) (VNum (7870997134957043 # 500000000000000)) (rs (opt ofQ) (modesp [(Some (37039986517444907 # 10000000000000000)%Q); (Some (37039986517444907 # 10000000000000000)%Q); (Some (37039986517444907 # 10000000000000000)%Q); (Some (37039986517444907 # 10000000000000000)%Q); (Some (37039986517444907 # 10000000000000000)%Q); (Some (37039986517444907 # 10000000000000000)%Q)]))]).
Example TestTrackQCMethodsModesp_test_single_speed_input_under8point5_is : TestTrackQCMethodsModesp_test_single_speed_input_under8point5 = true.
Proof. reflexivity. Qed.
Definition TestTrackQCMethodsModesp_test_single_speed_input_overmaximum : bool := Eval vm_compute in (all [near (1 # 1000000000000) (VNum (3993373546412029 # 62500000000000)) (rs (opt ofQ) (modesp [(Some (3703998651744491 # 10000000000000)%Q); (Some (3703998651744491 # 10000000000000)%Q); (Some (3703998651744491 # 10000000000000)%Q); (Some (3703998651744491 # 10000000000000)%Q); (Some (3703998651744491 # 10000000000000)%Q); (Some (3703998651744491 # 10000000000000)%Q)]))]).
Example TestTrackQCMethodsModesp_test_single_speed_input_overmaximum_is : TestTrackQCMethodsModesp_test_single_speed_input_overmaximum = true.
Proof. reflexivity. Qed.
Definition TestTrackQCMethodsModesp_test_one_of_each_speed_input_min_under8point5 : bool := Eval vm_compute in (all [same (rs (opt ofQ) (modesp (map (fun k => Some (inject_Z (Z.of_nat k) / km_to_nm)%Q) (seq 1 19)))) (VNum ((17 # 2) / km_to_nm))]).
Example TestTrackQCMethodsModesp_test_one_of_each_speed_input_min_under8point5_is : TestTrackQCMethodsModesp_test_one_of_each_speed_input_min_under8point5 = true.
Proof. reflexivity. Qed.
Definition TestTrackQCMethodsDistr1_test_first_entry_missing : bool := Eval vm_compute in (let x1 := (on (voyage_of [] [(new_report (Some "SHIP1    "%string) None [("YR"%string, (Some 2001%Q)); ("MO"%string, (Some 1%Q)); ("DY"%string, (Some 1%Q)); ("HR"%string, (Some 0%Q)); ("LAT"%string, (Some 0%Q)); ("LON"%string, (Some 0%Q)); ("DS"%string, (Some 8%Q)); ("VS"%string, (Some 4%Q))]); (new_report (Some "SHIP1    "%string) None [("YR"%string, (Some 2001%Q)); ("MO"%string, (Some 1%Q)); ("DY"%string, (Some 1%Q)); ("HR"%string, (Some 1%Q)); ("LAT"%string, (Some (374746659156231 # 1250000000000000)%Q)); ("LON"%string, (Some 0%Q)); ("DS"%string, (Some 8%Q)); ("VS"%string, (Some 4%Q))]); (new_report (Some "SHIP1    "%string) None [("YR"%string, (Some 2001%Q)); ("MO"%string, (Some 1%Q)); ("DY"%string, (Some 1%Q)); ("HR"%string, (Some 2%Q)); ("LAT"%string, (Some (374746659156231 # 625000000000000)%Q)); ("LON"%string, (Some 0%Q)); ("DS"%string, (Some 8%Q)); ("VS"%string, (Some 4%Q))]); (new_report (Some "SHIP1    "%string) None [("YR"%string, (Some 2001%Q)); ("MO"%string, (Some 1%Q)); ("DY"%string, (Some 1%Q)); ("HR"%string, (Some 3%Q)); ("LAT"%string, (Some (4496959909874773 # 5000000000000000)%Q)); ("LON"%string, (Some 0%Q)); ("DS"%string, (Some 8%Q)); ("VS"%string, (Some 4%Q))]); (new_report (Some "SHIP1    "%string) None [("YR"%string, (Some 2001%Q)); ("MO"%string, (Some 1%Q)); ("DY"%string, (Some 1%Q)); ("HR"%string, (Some 4%Q)); ("LAT"%string, (Some (11991893092999393 # 10000000000000000)%Q)); ("LON"%string, (Some 0%Q)); ("DS"%string, (Some 8%Q)); ("VS"%string, (Some 4%Q))]); (new_report (Some "SHIP1    "%string) None [("YR"%string, (Some 2001%Q)); ("MO"%string, (Some 1%Q)); ("DY"%string, (Some 1%Q)); ("HR"%string, (Some 5%Q)); ("LAT"%string, (Some (14989866366249243 # 10000000000000000)%Q)); ("LON"%string, (Some 0%Q)); ("DS"%string, (Some 8%Q)); ("VS"%string, (Some 4%Q))]); (new_report (Some "SHIP1    "%string) None [("YR"%string, (Some 2001%Q)); ("MO"%string, (Some 1%Q)); ("DY"%string, (Some 1%Q)); ("HR"%string, (Some 6%Q)); ("LAT"%string, (Some (4496959909874773 # 2500000000000000)%Q)); ("LON"%string, (Some 0%Q)); ("DS"%string, (Some 8%Q)); ("VS"%string, (Some 4%Q))]); (new_report (Some "SHIP1    "%string) None [("YR"%string, (Some 2001%Q)); ("MO"%string, (Some 1%Q)); ("DY"%string, (Some 1%Q)); ("HR"%string, (Some 7%Q)); ("LAT"%string, (Some (1049290645637447 # 500000000000000)%Q)); ("LON"%string, (Some 0%Q)); ("DS"%string, (Some 8%Q)); ("VS"%string, (Some 4%Q))]); (new_report (Some "SHIP1    "%string) None [("YR"%string, (Some 2001%Q)); ("MO"%string, (Some 1%Q)); ("DY"%string, (Some 1%Q)); ("HR"%string, (Some 8%Q)); ("LAT"%string, (Some (11991893092999393 # 5000000000000000)%Q)); ("LON"%string, (Some 0%Q)); ("DS"%string, (Some 8%Q)); ("VS"%string, (Some 4%Q))]); (new_report (Some "SHIP1    "%string) None [("YR"%string, (Some 2001%Q)); ("MO"%string, (Some 1%Q)); ("DY"%string, (Some 1%Q)); ("HR"%string, (Some 9%Q)); ("LAT"%string, (Some (13490879729624319 # 5000000000000000)%Q)); ("LON"%string, (Some 0%Q)); ("DS"%string, (Some 8%Q)); ("VS"%string, (Some 4%Q))]); (new_report (Some "SHIP1    "%string) None [("YR"%string, (Some 2001%Q)); ("MO"%string, (Some 1%Q)); ("DY"%string, (Some 1%Q)); ("HR"%string, (Some 10%Q)); ("LAT"%string, (Some (5995946546499697 # 2000000000000000)%Q)); ("LON"%string, (Some 0%Q)); ("DS"%string, (Some 8%Q)); ("VS"%string, (Some 4%Q))]); (new_report (Some "SHIP1    "%string) None [("YR"%string, (Some 2001%Q)); ("MO"%string, (Some 1%Q)); ("DY"%string, (Some 1%Q)); ("HR"%string, (Some 11%Q)); ("LAT"%string, (Some (32977706005748337 # 10000000000000000)%Q)); ("LON"%string, (Some 0%Q)); ("DS"%string, (Some 8%Q)); ("VS"%string, (Some 4%Q))]); (new_report (Some "SHIP1    "%string) None [("YR"%string, (Some 2001%Q)); ("MO"%string, (Some 1%Q)); ("DY"%string, (Some 1%Q)); ("HR"%string, (Some 12%Q)); ("LAT"%string, (Some (7195135855799637 # 2000000000000000)%Q)); ("LON"%string, (Some 0%Q)); ("DS"%string, (Some 8%Q)); ("VS"%string, (Some 4%Q))]); (new_report (Some "SHIP1    "%string) None [("YR"%string, (Some 2001%Q)); ("MO"%string, (Some 1%Q)); ("DY"%string, (Some 1%Q)); ("HR"%string, (Some 13%Q)); ("LAT"%string, (Some (38973652552248033 # 10000000000000000)%Q)); ("LON"%string, (Some 0%Q)); ("DS"%string, (Some 8%Q)); ("VS"%string, (Some 4%Q))]); (new_report (Some "SHIP1    "%string) None [("YR"%string, (Some 2001%Q)); ("MO"%string, (Some 1%Q)); ("DY"%string, (Some 1%Q)); ("HR"%string, (Some 14%Q)); ("LAT"%string, (Some (1049290645637447 # 250000000000000)%Q)); ("LON"%string, (Some 0%Q)); ("DS"%string, (Some 8%Q)); ("VS"%string, (Some 4%Q))]); (new_report (Some "SHIP1    "%string) None [("YR"%string, (Some 2001%Q)); ("MO"%string, (Some 1%Q)); ("DY"%string, (Some 1%Q)); ("HR"%string, (Some 15%Q)); ("LAT"%string, (Some (1124239977468693 # 250000000000000)%Q)); ("LON"%string, (Some 0%Q)); ("DS"%string, (Some 8%Q)); ("VS"%string, (Some 4%Q))]); (new_report (Some "SHIP1    "%string) None [("YR"%string, (Some 2001%Q)); ("MO"%string, (Some 1%Q)); ("DY"%string, (Some 1%Q)); ("HR"%string, (Some 16%Q)); ("LAT"%string, (Some (4796757237199757 # 1000000000000000)%Q)); ("LON"%string, (Some 0%Q)); ("DS"%string, (Some 8%Q)); ("VS"%string, (Some 4%Q))]); (new_report (Some "SHIP1    "%string) None [("YR"%string, (Some 2001%Q)); ("MO"%string, (Some 1%Q)); ("DY"%string, (Some 1%Q)); ("HR"%string, (Some 17%Q)); ("LAT"%string, (Some (5096554564524743 # 1000000000000000)%Q)); ("LON"%string, (Some 0%Q)); ("DS"%string, (Some 8%Q)); ("VS"%string, (Some 4%Q))]); (new_report (Some "SHIP1    "%string) None [("YR"%string, (Some 2001%Q)); ("MO"%string, (Some 1%Q)); ("DY"%string, (Some 1%Q)); ("HR"%string, (Some 18%Q)); ("LAT"%string, (Some (2158540756739891 # 400000000000000)%Q)); ("LON"%string, (Some 0%Q)); ("DS"%string, (Some 8%Q)); ("VS"%string, (Some 4%Q))]); (new_report (Some "SHIP1    "%string) None [("YR"%string, (Some 2001%Q)); ("MO"%string, (Some 1%Q)); ("DY"%string, (Some 1%Q)); ("HR"%string, (Some 19%Q)); ("LAT"%string, (Some (712018652396839 # 125000000000000)%Q)); ("LON"%string, (Some 0%Q)); ("DS"%string, (Some 8%Q)); ("VS"%string, (Some 4%Q))]); (new_report (Some "SHIP1    "%string) None [("YR"%string, (Some 2001%Q)); ("MO"%string, (Some 1%Q)); ("DY"%string, (Some 1%Q)); ("HR"%string, (Some 20%Q)); ("LAT"%string, (Some (5995946546499697 # 1000000000000000)%Q)); ("LON"%string, (Some 0%Q)); ("DS"%string, (Some 8%Q)); ("VS"%string, (Some 4%Q))]); (new_report (Some "SHIP1    "%string) None [("YR"%string, (Some 2001%Q)); ("MO"%string, (Some 1%Q)); ("DY"%string, (Some 1%Q)); ("HR"%string, (Some 21%Q)); ("LAT"%string, (Some (3147871936912341 # 500000000000000)%Q)); ("LON"%string, (Some 0%Q)); ("DS"%string, (Some 8%Q)); ("VS"%string, (Some 4%Q))]); (new_report (Some "SHIP1    "%string) None [("YR"%string, (Some 2001%Q)); ("MO"%string, (Some 1%Q)); ("DY"%string, (Some 1%Q)); ("HR"%string, (Some 22%Q)); ("LAT"%string, (Some (2638216480459867 # 400000000000000)%Q)); ("LON"%string, (Some 0%Q)); ("DS"%string, (Some 8%Q)); ("VS"%string, (Some 4%Q))]); (new_report (Some "SHIP1    "%string) None [("YR"%string, (Some 2001%Q)); ("MO"%string, (Some 1%Q)); ("DY"%string, (Some 1%Q)); ("HR"%string, (Some 23%Q)); ("LAT"%string, (Some (1723834632118663 # 250000000000000)%Q)); ("LON"%string, (Some 0%Q)); ("DS"%string, (Some 8%Q)); ("VS"%string, (Some 4%Q))])]) (distr1 earth)) in
  all [same (rs (fun l => rs (opt ofQ) (at_ l 0)) x1) VNone]).
Example TestTrackQCMethodsDistr1_test_first_entry_missing_is : TestTrackQCMethodsDistr1_test_first_entry_missing = true.
Proof. reflexivity. Qed.
Definition TestTrackQCMethodsDistr1_test_ship_is_at_computed_location : bool := Eval vm_compute in (let x1 := (on (voyage_of [] [(new_report (Some "SHIP1    "%string) None [("YR"%string, (Some 2001%Q)); ("MO"%string, (Some 1%Q)); ("DY"%string, (Some 1%Q)); ("HR"%string, (Some 0%Q)); ("LAT"%string, (Some 0%Q)); ("LON"%string, (Some 0%Q)); ("DS"%string, (Some 8%Q)); ("VS"%string, (Some 4%Q))]); (new_report (Some "SHIP1    "%string) None [("YR"%string, (Some 2001%Q)); ("MO"%string, (Some 1%Q)); ("DY"%string, (Some 1%Q)); ("HR"%string, (Some 1%Q)); ("LAT"%string, (Some (374746659156231 # 1250000000000000)%Q)); ("LON"%string, (Some 0%Q)); ("DS"%string, (Some 8%Q)); ("VS"%string, (Some 4%Q))]); (new_report (Some "SHIP1    "%string) None [("YR"%string, (Some 2001%Q)); ("MO"%string, (Some 1%Q)); ("DY"%string, (Some 1%Q)); ("HR"%string, (Some 2%Q)); ("LAT"%string, (Some (374746659156231 # 625000000000000)%Q)); ("LON"%string, (Some 0%Q)); ("DS"%string, (Some 8%Q)); ("VS"%string, (Some 4%Q))]); (new_report (Some "SHIP1    "%string) None [("YR"%string, (Some 2001%Q)); ("MO"%string, (Some 1%Q)); ("DY"%string, (Some 1%Q)); ("HR"%string, (Some 3%Q)); ("LAT"%string, (Some (4496959909874773 # 5000000000000000)%Q)); ("LON"%string, (Some 0%Q)); ("DS"%string, (Some 8%Q)); ("VS"%string, (Some 4%Q))]); (new_report (Some "SHIP1    "%string) None [("YR"%string, (Some 2001%Q)); ("MO"%string, (Some 1%Q)); ("DY"%string, (Some 1%Q)); ("HR"%string, (Some 4%Q)); ("LAT"%string, (Some (11991893092999393 # 10000000000000000)%Q)); ("LON"%string, (Some 0%Q)); ("DS"%string, (Some 8%Q)); ("VS"%string, (Some 4%Q))]); (new_report (Some "SHIP1    "%string) None [("YR"%string, (Some 2001%Q)); ("MO"%string, (Some 1%Q)); ("DY"%string, (Some 1%Q)); ("HR"%string, (Some 5%Q)); ("LAT"%string, (Some (14989866366249243 # 10000000000000000)%Q)); ("LON"%string, (Some 0%Q)); ("DS"%string, (Some 8%Q)); ("VS"%string, (Some 4%Q))]); (new_report (Some "SHIP1    "%string) None [("YR"%string, (Some 2001%Q)); ("MO"%string, (Some 1%Q)); ("DY"%string, (Some 1%Q)); ("HR"%string, (Some 6%Q)); ("LAT"%string, (Some (4496959909874773 # 2500000000000000)%Q)); ("LON"%string, (Some 0%Q)); ("DS"%string, (Some 8%Q)); ("VS"%string, (Some 4%Q))]); (new_report (Some "SHIP1    "%string) None [("YR"%string, (Some 2001%Q)); ("MO"%string, (Some 1%Q)); ("DY"%string, (Some 1%Q)); ("HR"%string, (Some 7%Q)); ("LAT"%string, (Some (1049290645637447 # 500000000000000)%Q)); ("LON"%string, (Some 0%Q)); ("DS"%string, (Some 8%Q)); ("VS"%string, (Some 4%Q))]); (new_report (Some "SHIP1    "%string) None [("YR"%string, (Some 2001%Q)); ("MO"%string, (Some 1%Q)); ("DY"%string, (Some 1%Q)); ("HR"%string, (Some 8%Q)); ("LAT"%string, (Some (11991893092999393 # 5000000000000000)%Q)); ("LON"%string, (Some 0%Q)); ("DS"%string, (Some 8%Q)); ("VS"%string, (Some 4%Q))]); (new_report (Some "SHIP1    "%string) None [("YR"%string, (Some 2001%Q)); ("MO"%string, (Some 1%Q)); ("DY"%string, (Some 1%Q)); ("HR"%string, (Some 9%Q)); ("LAT"%string, (Some (13490879729624319 # 5000000000000000)%Q)); ("LON"%string, (Some 0%Q)); ("DS"%string, (Some 8%Q)); ("VS"%string, (Some 4%Q))]); (new_report (Some "SHIP1    "%string) None [("YR"%string, (Some 2001%Q)); ("MO"%string, (Some 1%Q)); ("DY"%string, (Some 1%Q)); ("HR"%string, (Some 10%Q)); ("LAT"%string, (Some (5995946546499697 # 2000000000000000)%Q)); ("LON"%string, (Some 0%Q)); ("DS"%string, (Some 8%Q)); ("VS"%string, (Some 4%Q))]); (new_report (Some "SHIP1    "%string) None [("YR"%string, (Some 2001%Q)); ("MO"%string, (Some 1%Q)); ("DY"%string, (Some 1%Q)); ("HR"%string, (Some 11%Q)); ("LAT"%string, (Some (32977706005748337 # 10000000000000000)%Q)); ("LON"%string, (Some 0%Q)); ("DS"%string, (Some 8%Q)); ("VS"%string, (Some 4%Q))]); (new_report (Some "SHIP1    "%string) None [("YR"%string, (Some 2001%Q)); ("MO"%string, (Some 1%Q)); ("DY"%string, (Some 1%Q)); ("HR"%string, (Some 12%Q)); ("LAT"%string, (Some (7195135855799637 # 2000000000000000)%Q)); ("LON"%string, (Some 0%Q)); ("DS"%string, (Some 8%Q)); ("VS"%string, (Some 4%Q))]); (new_report (Some "SHIP1    "%string) None [("YR"%string, (Some 2001%Q)); ("MO"%string, (Some 1%Q)); ("DY"%string, (Some 1%Q)); ("HR"%string, (Some 13%Q)); ("LAT"%string, (Some (38973652552248033 # 10000000000000000)%Q)); ("LON"%string, (Some 0%Q)); ("DS"%string, (Some 8%Q)); ("VS"%string, (Some 4%Q))]); (new_report (Some "SHIP1    "%string) None [("YR"%string, (Some 2001%Q)); ("MO"%string, (Some 1%Q)); ("DY"%string, (Some 1%Q)); ("HR"%string, (Some 14%Q)); ("LAT"%string, (Some (1049290645637447 # 250000000000000)%Q)); ("LON"%string, (Some 0%Q)); ("DS"%string, (Some 8%Q)); ("VS"%string, (Some 4%Q))]); (new_report (Some "SHIP1    "%string) None [("YR"%string, (Some 2001%Q)); ("MO"%string, (Some 1%Q)); ("DY"%string, (Some 1%Q)); ("HR"%string, (Some 15%Q)); ("LAT"%string, (Some (1124239977468693 # 250000000000000)%Q)); ("LON"%string, (Some 0%Q)); ("DS"%string, (Some 8%Q)); ("VS"%string, (Some 4%Q))]); (new_report (Some "SHIP1    "%string) None [("YR"%string, (Some 2001%Q)); ("MO"%string, (Some 1%Q)); ("DY"%string, (Some 1%Q)); ("HR"%string, (Some 16%Q)); ("LAT"%string, (Some (4796757237199757 # 1000000000000000)%Q)); ("LON"%string, (Some 0%Q)); ("DS"%string, (Some 8%Q)); ("VS"%string, (Some 4%Q))]); (new_report (Some "SHIP1    "%string) None [("YR"%string, (Some 2001%Q)); ("MO"%string, (Some 1%Q)); ("DY"%string, (Some 1%Q)); ("HR"%string, (Some 17%Q)); ("LAT"%string, (Some (5096554564524743 # 1000000000000000)%Q)); ("LON"%string, (Some 0%Q)); ("DS"%string, (Some 8%Q)); ("VS"%string, (Some 4%Q))]); (new_report (Some "SHIP1    "%string) None [("YR"%string, (Some 2001%Q)); ("MO"%string, (Some 1%Q)); ("DY"%string, (Some 1%Q)); ("HR"%string, (Some 18%Q)); ("LAT"%string, (Some (2158540756739891 # 400000000000000)%Q)); ("LON"%string, (Some 0%Q)); ("DS"%string, (Some 8%Q)); ("VS"%string, (Some 4%Q))]); (new_report (Some "SHIP1    "%string) None [("YR"%string, (Some 2001%Q)); ("MO"%string, (Some 1%Q)); ("DY"%string, (Some 1%Q)); ("HR"%string, (Some 19%Q)); ("LAT"%string, (Some (712018652396839 # 125000000000000)%Q)); ("LON"%string, (Some 0%Q)); ("DS"%string, (Some 8%Q)); ("VS"%string, (Some 4%Q))]); (new_report (Some "SHIP1    "%string) None [("YR"%string, (Some 2001%Q)); ("MO"%string, (Some 1%Q)); ("DY"%string, (Some 1%Q)); ("HR"%string, (Some 20%Q)); ("LAT"%string, (Some (5995946546499697 # 1000000000000000)%Q)); ("LON"%string, (Some 0%Q)); ("DS"%string, (Some 8%Q)); ("VS"%string, (Some 4%Q))]); (new_report (Some "SHIP1    "%string) None [("YR"%string, (Some 2001%Q)); ("MO"%string, (Some 1%Q)); ("DY"%string, (Some 1%Q)); ("HR"%string, (Some 21%Q)); ("LAT"%string, (Some (3147871936912341 # 500000000000000)%Q)); ("LON"%string, (Some 0%Q)); ("DS"%string, (Some 8%Q)); ("VS"%string, (Some 4%Q))]); (new_report (Some "SHIP1    "%string) None [("YR"%string, (Some 2001%Q)); ("MO"%string, (Some 1%Q)); ("DY"%string, (Some 1%Q)); ("HR"%string, (Some 22%Q)); ("LAT"%string, (Some (2638216480459867 # 400000000000000)%Q)); ("LON"%string, (Some 0%Q)); ("DS"%string, (Some 8%Q)); ("VS"%string, (Some 4%Q))]); (new_report (Some "SHIP1    "%string) None [("YR"%string, (Some 2001%Q)); ("MO"%string, (Some 1%Q)); ("DY"%string, (Some 1%Q)); ("HR"%string, (Some 23%Q)); ("LAT"%string, (Some (1723834632118663 # 250000000000000)%Q)); ("LON"%string, (Some 0%Q)); ("DS"%string, (Some 8%Q)); ("VS"%string, (Some 4%Q))])]) (distr1 earth)) in
  all [near (1 # 100000) (rs (fun l => rs (opt ofQ) (at_ l 1)) x1) (VNum 0);
  near (1 # 100000) (rs (fun l => rs (opt ofQ) (at_ l 2)) x1) (VNum 0);
  near (1 # 100000) (rs (fun l => rs (opt ofQ) (at_ l 3)) x1) (VNum 0);
  near (1 # 100000) (rs (fun l => rs (opt ofQ) (at_ l 4)) x1) (VNum 0);
  near (1 # 100000) (rs (fun l => rs (opt ofQ) (at_ l 5)) x1) (VNum 0);
  near (1 # 100000) (rs (fun l => rs (opt ofQ) (at_ l 6)) x1) (VNum 0);
  near (1 # 100000) (rs (fun l => rs (opt ofQ) (at_ l 7)) x1) (VNum 0);
  near (1 # 100000) (rs (fun l => rs (opt ofQ) (at_ l 8)) x1) (VNum 0);
  near (1 # 100000) (rs (fun l => rs (opt ofQ) (at_ l 9)) x1) (VNum 0);
  near (1 # 100000) (rs (fun l => rs (opt ofQ) (at_ l 10)) x1) (VNum 0);
  near (1 # 100000) (rs (fun l => rs (opt ofQ) (at_ l 11)) x1) (VNum 0);
  near (1 # 100000) (rs (fun l => rs (opt ofQ) (at_ l 12)) x1) (VNum 0);
  near (1 # 100000) (rs (fun l => rs (opt ofQ) (at_ l 13)) x1) (VNum 0);
  near (1 # 100000) (rs (fun l => rs (opt ofQ) (at_ l 14)) x1) (VNum 0);
  near (1 # 100000) (rs (fun l => rs (opt ofQ) (at_ l 15)) x1) (VNum 0);
  near (1 # 100000) (rs (fun l => rs (opt ofQ) (at_ l 16)) x1) (VNum 0);
  near (1 # 100000) (rs (fun l => rs (opt ofQ) (at_ l 17)) x1) (VNum 0);
  near (1 # 100000) (rs (fun l => rs (opt ofQ) (at_ l 18)) x1) (VNum 0);
  near (1 # 100000) (rs (fun l => rs (opt ofQ) (at_ l 19)) x1) (VNum 0);
  near (1 # 100000) (rs (fun l => rs (opt ofQ) (at_ l 20)) x1) (VNum 0);
  near (1 # 100000) (rs (fun l => rs (opt ofQ) (at_ l 21)) x1) (VNum 0);
  near (1 # 100000) (rs (fun l => rs (opt ofQ) (at_ l 22)) x1) (VNum 0)]).
Example TestTrackQCMethodsDistr1_test_ship_is_at_computed_location_is : TestTrackQCMethodsDistr1_test_ship_is_at_computed_location = true.
Proof. reflexivity. Qed.
Definition TestTrackQCMethodsDistr1_test_misplaced_ob_out_by_1degree_times_coslat : bool := Eval vm_compute in (let x1 := (on (voyage_of [] [(new_report (Some "SHIP1    "%string) None [("YR"%string, (Some 2001%Q)); ("MO"%string, (Some 1%Q)); ("DY"%string, (Some 1%Q)); ("HR"%string, (Some 0%Q)); ("LAT"%string, (Some 0%Q)); ("LON"%string, (Some 0%Q)); ("DS"%string, (Some 8%Q)); ("VS"%string, (Some 4%Q))]); (on (new_report (Some "SHIP1    "%string) None [("YR"%string, (Some 2001%Q)); ("MO"%string, (Some 1%Q)); ("DY"%string, (Some 1%Q)); ("HR"%string, (Some 1%Q)); ("LAT"%string, (Some (374746659156231 # 1250000000000000)%Q)); ("LON"%string, (Some 0%Q)); ("DS"%string, (Some 8%Q)); ("VS"%string, (Some 4%Q))]) (fun r => setvar r "LON"%string (Some 1%Q))); (new_report (Some "SHIP1    "%string) None [("YR"%string, (Some 2001%Q)); ("MO"%string, (Some 1%Q)); ("DY"%string, (Some 1%Q)); ("HR"%string, (Some 2%Q)); ("LAT"%string, (Some (374746659156231 # 625000000000000)%Q)); ("LON"%string, (Some 0%Q)); ("DS"%string, (Some 8%Q)); ("VS"%string, (Some 4%Q))])]) (distr1 earth)) in
  all [near (1 # 100000) (rs (fun l => rs (opt ofQ) (at_ l 1)) x1) (VNum (11119355805765677 # 100000000000000))]).
Example TestTrackQCMethodsDistr1_test_misplaced_ob_out_by_1degree_times_coslat_is : TestTrackQCMethodsDistr1_test_misplaced_ob_out_by_1degree_times_coslat = true.
Proof. reflexivity. Qed.
Definition TestTrackQCMethodsDistr2_test_last_entry_missing : bool := Eval vm_compute in (let x1 := (on (voyage_of [] [(new_report (Some "SHIP1    "%string) None [("YR"%string, (Some 2001%Q)); ("MO"%string, (Some 1%Q)); ("DY"%string, (Some 1%Q)); ("HR"%string, (Some 0%Q)); ("LAT"%string, (Some 0%Q)); ("LON"%string, (Some 0%Q)); ("DS"%string, (Some 8%Q)); ("VS"%string, (Some 4%Q))]); (new_report (Some "SHIP1    "%string) None [("YR"%string, (Some 2001%Q)); ("MO"%string, (Some 1%Q)); ("DY"%string, (Some 1%Q)); ("HR"%string, (Some 1%Q)); ("LAT"%string, (Some (374746659156231 # 1250000000000000)%Q)); ("LON"%string, (Some 0%Q)); ("DS"%string, (Some 8%Q)); ("VS"%string, (Some 4%Q))]); (new_report (Some "SHIP1    "%string) None [("YR"%string, (Some 2001%Q)); ("MO"%string, (Some 1%Q)); ("DY"%string, (Some 1%Q)); ("HR"%string, (Some 2%Q)); ("LAT"%string, (Some (374746659156231 # 625000000000000)%Q)); ("LON"%string, (Some 0%Q)); ("DS"%string, (Some 8%Q)); ("VS"%string, (Some 4%Q))]); (new_report (Some "SHIP1    "%string) None [("YR"%string, (Some 2001%Q)); ("MO"%string, (Some 1%Q)); ("DY"%string, (Some 1%Q)); ("HR"%string, (Some 3%Q)); ("LAT"%string, (Some (4496959909874773 # 5000000000000000)%Q)); ("LON"%string, (Some 0%Q)); ("DS"%string, (Some 8%Q)); ("VS"%string, (Some 4%Q))]); (new_report (Some "SHIP1    "%string) None [("YR"%string, (Some 2001%Q)); ("MO"%string, (Some 1%Q)); ("DY"%string, (Some 1%Q)); ("HR"%string, (Some 4%Q)); ("LAT"%string, (Some (11991893092999393 # 10000000000000000)%Q)); ("LON"%string, (Some 0%Q)); ("DS"%string, (Some 8%Q)); ("VS"%string, (Some 4%Q))]); (new_report (Some "SHIP1    "%string) None [("YR"%string, (Some 2001%Q)); ("MO"%string, (Some 1%Q)); ("DY"%string, (Some 1%Q)); ("HR"%string, (Some 5%Q)); ("LAT"%string, (Some (14989866366249243 # 10000000000000000)%Q)); ("LON"%string, (Some 0%Q)); ("DS"%string, (Some 8%Q)); ("VS"%string, (Some 4%Q))]); (new_report (Some "SHIP1    "%string) None [("YR"%string, (Some 2001%Q)); ("MO"%string, (Some 1%Q)); ("DY"%string, (Some 1%Q)); ("HR"%string, (Some 6%Q)); ("LAT"%string, (Some (4496959909874773 # 2500000000000000)%Q)); ("LON"%string, (Some 0%Q)); ("DS"%string, (Some 8%Q)); ("VS"%string, (Some 4%Q))]); (new_report (Some "SHIP1    "%string) None [("YR"%string, (Some 2001%Q)); ("MO"%string, (Some 1%Q)); ("DY"%string, (Some 1%Q)); ("HR"%string, (Some 7%Q)); ("LAT"%string, (Some (1049290645637447 # 500000000000000)%Q)); ("LON"%string, (Some 0%Q)); ("DS"%string, (Some 8%Q)); ("VS"%string, (Some 4%Q))]); (new_report (Some "SHIP1    "%string) None [("YR"%string, (Some 2001%Q)); ("MO"%string, (Some 1%Q)); ("DY"%string, (Some 1%Q)); ("HR"%string, (Some 8%Q)); ("LAT"%string, (Some (11991893092999393 # 5000000000000000)%Q)); ("LON"%string, (Some 0%Q)); ("DS"%string, (Some 8%Q)); ("VS"%string, (Some 4%Q))]); (new_report (Some "SHIP1    "%string) None [("YR"%string, (Some 2001%Q)); ("MO"%string, (Some 1%Q)); ("DY"%string, (Some 1%Q)); ("HR"%string, (Some 9%Q)); ("LAT"%string, (Some (13490879729624319 # 5000000000000000)%Q)); ("LON"%string, (Some 0%Q)); ("DS"%string, (Some 8%Q)); ("VS"%string, (Some 4%Q))]); (new_report (Some "SHIP1    "%string) None [("YR"%string, (Some 2001%Q)); ("MO"%string, (Some 1%Q)); ("DY"%string, (Some 1%Q)); ("HR"%string, (Some 10%Q)); ("LAT"%string, (Some (5995946546499697 # 2000000000000000)%Q)); ("LON"%string, (Some 0%Q)); ("DS"%string, (Some 8%Q)); ("VS"%string, (Some 4%Q))]); (new_report (Some "SHIP1    "%string) None [("YR"%string, (Some 2001%Q)); ("MO"%string, (Some 1%Q)); ("DY"%string, (Some 1%Q)); ("HR"%string, (Some 11%Q)); ("LAT"%string, (Some (32977706005748337 # 10000000000000000)%Q)); ("LON"%string, (Some 0%Q)); ("DS"%string, (Some 8%Q)); ("VS"%string, (Some 4%Q))]); (new_report (Some "SHIP1    "%string) None [("YR"%string, (Some 2001%Q)); ("MO"%string, (Some 1%Q)); ("DY"%string, (Some 1%Q)); ("HR"%string, (Some 12%Q)); ("LAT"%string, (Some (7195135855799637 # 2000000000000000)%Q)); ("LON"%string, (Some 0%Q)); ("DS"%string, (Some 8%Q)); ("VS"%string, (Some 4%Q))]); (new_report (Some "SHIP1    "%string) None [("YR"%string, (Some 2001%Q)); ("MO"%string, (Some 1%Q)); ("DY"%string, (Some 1%Q)); ("HR"%string, (Some 13%Q)); ("LAT"%string, (Some (38973652552248033 # 10000000000000000)%Q)); ("LON"%string, (Some 0%Q)); ("DS"%string, (Some 8%Q)); ("VS"%string, (Some 4%Q))]); (new_report (Some "SHIP1    "%string) None [("YR"%string, (Some 2001%Q)); ("MO"%string, (Some 1%Q)); ("DY"%string, (Some 1%Q)); ("HR"%string, (Some 14%Q)); ("LAT"%string, (Some (1049290645637447 # 250000000000000)%Q)); ("LON"%string, (Some 0%Q)); ("DS"%string, (Some 8%Q)); ("VS"%string, (Some 4%Q))]); (new_report (Some "SHIP1    "%string) None [("YR"%string, (Some 2001%Q)); ("MO"%string, (Some 1%Q)); ("DY"%string, (Some 1%Q)); ("HR"%string, (Some 15%Q)); ("LAT"%string, (Some (1124239977468693 # 250000000000000)%Q)); ("LON"%string, (Some 0%Q)); ("DS"%string, (Some 8%Q)); ("VS"%string, (Some 4%Q))]); (new_report (Some "SHIP1    "%string) None [("YR"%string, (Some 2001%Q)); ("MO"%string, (Some 1%Q)); ("DY"%string, (Some 1%Q)); ("HR"%string, (Some 16%Q)); ("LAT"%string, (Some (4796757237199757 # 1000000000000000)%Q)); ("LON"%string, (Some 0%Q)); ("DS"%string, (Some 8%Q)); ("VS"%string, (Some 4%Q))]); (new_report (Some "SHIP1    "%string) None [("YR"%string, (Some 2001%Q)); ("MO"%string, (Some 1%Q)); ("DY"%string, (Some 1%Q)); ("HR"%string, (Some 17%Q)); ("LAT"%string, (Some (5096554564524743 # 1000000000000000)%Q)); ("LON"%string, (Some 0%Q)); ("DS"%string, (Some 8%Q)); ("VS"%string, (Some 4%Q))]); (new_report (Some "SHIP1    "%string) None [("YR"%string, (Some 2001%Q)); ("MO"%string, (Some 1%Q)); ("DY"%string, (Some 1%Q)); ("HR"%string, (Some 18%Q)); ("LAT"%string, (Some (2158540756739891 # 400000000000000)%Q)); ("LON"%string, (Some 0%Q)); ("DS"%string, (Some 8%Q)); ("VS"%string, (Some 4%Q))]); (new_report (Some "SHIP1    "%string) None [("YR"%string, (Some 2001%Q)); ("MO"%string, (Some 1%Q)); ("DY"%string, (Some 1%Q)); ("HR"%string, (Some 19%Q)); ("LAT"%string, (Some (712018652396839 # 125000000000000)%Q)); ("LON"%string, (Some 0%Q)); ("DS"%string, (Some 8%Q)); ("VS"%string, (Some 4%Q))]); (new_report (Some "SHIP1    "%string) None [("YR"%string, (Some 2001%Q)); ("MO"%string, (Some 1%Q)); ("DY"%string, (Some 1%Q)); ("HR"%string, (Some 20%Q)); ("LAT"%string, (Some (5995946546499697 # 1000000000000000)%Q)); ("LON"%string, (Some 0%Q)); ("DS"%string, (Some 8%Q)); ("VS"%string, (Some 4%Q))]); (new_report (Some "SHIP1    "%string) None [("YR"%string, (Some 2001%Q)); ("MO"%string, (Some 1%Q)); ("DY"%string, (Some 1%Q)); ("HR"%string, (Some 21%Q)); ("LAT"%string, (Some (3147871936912341 # 500000000000000)%Q)); ("LON"%string, (Some 0%Q)); ("DS"%string, (Some 8%Q)); ("VS"%string, (Some 4%Q))]); (new_report (Some "SHIP1    "%string) None [("YR"%string, (Some 2001%Q)); ("MO"%string, (Some 1%Q)); ("DY"%string, (Some 1%Q)); ("HR"%string, (Some 22%Q)); ("LAT"%string, (Some (2638216480459867 # 400000000000000)%Q)); ("LON"%string, (Some 0%Q)); ("DS"%string, (Some 8%Q)); ("VS"%string, (Some 4%Q))]); (new_report (Some "SHIP1    "%string) None [("YR"%string, (Some 2001%Q)); ("MO"%string, (Some 1%Q)); ("DY"%string, (Some 1%Q)); ("HR"%string, (Some 23%Q)); ("LAT"%string, (Some (1723834632118663 # 250000000000000)%Q)); ("LON"%string, (Some 0%Q)); ("DS"%string, (Some 8%Q)); ("VS"%string, (Some 4%Q))])]) (distr2 earth)) in
  all [same (rs (fun l => rs (opt ofQ) (at_ l 23)) x1) VNone]).
Example TestTrackQCMethodsDistr2_test_last_entry_missing_is : TestTrackQCMethodsDistr2_test_last_entry_missing = true.
Proof. reflexivity. Qed.
Definition TestTrackQCMethodsDistr2_test_ship_is_at_computed_location : bool := Eval vm_compute in (let x1 := (on (voyage_of [] [(new_report (Some "SHIP1    "%string) None [("YR"%string, (Some 2001%Q)); ("MO"%string, (Some 1%Q)); ("DY"%string, (Some 1%Q)); ("HR"%string, (Some 0%Q)); ("LAT"%string, (Some 0%Q)); ("LON"%string, (Some 0%Q)); ("DS"%string, (Some 8%Q)); ("VS"%string, (Some 4%Q))]); (new_report (Some "SHIP1    "%string) None [("YR"%string, (Some 2001%Q)); ("MO"%string, (Some 1%Q)); ("DY"%string, (Some 1%Q)); ("HR"%string, (Some 1%Q)); ("LAT"%string, (Some (374746659156231 # 1250000000000000)%Q)); ("LON"%string, (Some 0%Q)); ("DS"%string, (Some 8%Q)); ("VS"%string, (Some 4%Q))]); (new_report (Some "SHIP1    "%string) None [("YR"%string, (Some 2001%Q)); ("MO"%string, (Some 1%Q)); ("DY"%string, (Some 1%Q)); ("HR"%string, (Some 2%Q)); ("LAT"%string, (Some (374746659156231 # 625000000000000)%Q)); ("LON"%string, (Some 0%Q)); ("DS"%string, (Some 8%Q)); ("VS"%string, (Some 4%Q))]); (new_report (Some "SHIP1    "%string) None [("YR"%string, (Some 2001%Q)); ("MO"%string, (Some 1%Q)); ("DY"%string, (Some 1%Q)); ("HR"%string, (Some 3%Q)); ("LAT"%string, (Some (4496959909874773 # 5000000000000000)%Q)); ("LON"%string, (Some 0%Q)); ("DS"%string, (Some 8%Q)); ("VS"%string, (Some 4%Q))]); (new_report (Some "SHIP1    "%string) None [("YR"%string, (Some 2001%Q)); ("MO"%string, (Some 1%Q)); ("DY"%string, (Some 1%Q)); ("HR"%string, (Some 4%Q)); ("LAT"%string, (Some (11991893092999393 # 10000000000000000)%Q)); ("LON"%string, (Some 0%Q)); ("DS"%string, (Some 8%Q)); ("VS"%string, (Some 4%Q))]); (new_report (Some "SHIP1    "%string) None [("YR"%string, (Some 2001%Q)); ("MO"%string, (Some 1%Q)); ("DY"%string, (Some 1%Q)); ("HR"%string, (Some 5%Q)); ("LAT"%string, (Some (14989866366249243 # 10000000000000000)%Q)); ("LON"%string, (Some 0%Q)); ("DS"%string, (Some 8%Q)); ("VS"%string, (Some 4%Q))]); (new_report (Some "SHIP1    "%string) None [("YR"%string, (Some 2001%Q)); ("MO"%string, (Some 1%Q)); ("DY"%string, (Some 1%Q)); ("HR"%string, (Some 6%Q)); ("LAT"%string, (Some (4496959909874773 # 2500000000000000)%Q)); ("LON"%string, (Some 0%Q)); ("DS"%string, (Some 8%Q)); ("VS"%string, (Some 4%Q))]); (new_report (Some "SHIP1    "%string) None [("YR"%string, (Some 2001%Q)); ("MO"%string, (Some 1%Q)); ("DY"%string, (Some 1%Q)); ("HR"%string, (Some 7%Q)); ("LAT"%string, (Some (1049290645637447 # 500000000000000)%Q)); ("LON"%string, (Some 0%Q)); ("DS"%string, (Some 8%Q)); ("VS"%string, (Some 4%Q))]); (new_report (Some "SHIP1    "%string) None [("YR"%string, (Some 2001%Q)); ("MO"%string, (Some 1%Q)); ("DY"%string, (Some 1%Q)); ("HR"%string, (Some 8%Q)); ("LAT"%string, (Some (11991893092999393 # 5000000000000000)%Q)); ("LON"%string, (Some 0%Q)); ("DS"%string, (Some 8%Q)); ("VS"%string, (Some 4%Q))]); (new_report (Some "SHIP1    "%string) None [("YR"%string, (Some 2001%Q)); ("MO"%string, (Some 1%Q)); ("DY"%string, (Some 1%Q)); ("HR"%string, (Some 9%Q)); ("LAT"%string, (Some (13490879729624319 # 5000000000000000)%Q)); ("LON"%string, (Some 0%Q)); ("DS"%string, (Some 8%Q)); ("VS"%string, (Some 4%Q))]); (new_report (Some "SHIP1    "%string) None [("YR"%string, (Some 2001%Q)); ("MO"%string, (Some 1%Q)); ("DY"%string, (Some 1%Q)); ("HR"%string, (Some 10%Q)); ("LAT"%string, (Some (5995946546499697 # 2000000000000000)%Q)); ("LON"%string, (Some 0%Q)); ("DS"%string, (Some 8%Q)); ("VS"%string, (Some 4%Q))]); (new_report (Some "SHIP1    "%string) None [("YR"%string, (Some 2001%Q)); ("MO"%string, (Some 1%Q)); ("DY"%string, (Some 1%Q)); ("HR"%string, (Some 11%Q)); ("LAT"%string, (Some (32977706005748337 # 10000000000000000)%Q)); ("LON"%string, (Some 0%Q)); ("DS"%string, (Some 8%Q)); ("VS"%string, (Some 4%Q))]); (new_report (Some "SHIP1    "%string) None [("YR"%string, (Some 2001%Q)); ("MO"%string, (Some 1%Q)); ("DY"%string, (Some 1%Q)); ("HR"%string, (Some 12%Q)); ("LAT"%string, (Some (7195135855799637 # 2000000000000000)%Q)); ("LON"%string, (Some 0%Q)); ("DS"%string, (Some 8%Q)); ("VS"%string, (Some 4%Q))]); (new_report (Some "SHIP1    "%string) None [("YR"%string, (Some 2001%Q)); ("MO"%string, (Some 1%Q)); ("DY"%string, (Some 1%Q)); ("HR"%string, (Some 13%Q)); ("LAT"%string, (Some (38973652552248033 # 10000000000000000)%Q)); ("LON"%string, (Some 0%Q)); ("DS"%string, (Some 8%Q)); ("VS"%string, (Some 4%Q))]); (new_report (Some "SHIP1    "%string) None [("YR"%string, (Some 2001%Q)); ("MO"%string, (Some 1%Q)); ("DY"%string, (Some 1%Q)); ("HR"%string, (Some 14%Q)); ("LAT"%string, (Some (1049290645637447 # 250000000000000)%Q)); ("LON"%string, (Some 0%Q)); ("DS"%string, (Some 8%Q)); ("VS"%string, (Some 4%Q))]); (new_report (Some "SHIP1    "%string) None [("YR"%string, (Some 2001%Q)); ("MO"%string, (Some 1%Q)); ("DY"%string, (Some 1%Q)); ("HR"%string, (Some 15%Q)); ("LAT"%string, (Some (1124239977468693 # 250000000000000)%Q)); ("LON"%string, (Some 0%Q)); ("DS"%string, (Some 8%Q)); ("VS"%string, (Some 4%Q))]); (new_report (Some "SHIP1    "%string) None [("YR"%string, (Some 2001%Q)); ("MO"%string, (Some 1%Q)); ("DY"%string, (Some 1%Q)); ("HR"%string, (Some 16%Q)); ("LAT"%string, (Some (4796757237199757 # 1000000000000000)%Q)); ("LON"%string, (Some 0%Q)); ("DS"%string, (Some 8%Q)); ("VS"%string, (Some 4%Q))]); (new_report (Some "SHIP1    "%string) None [("YR"%string, (Some 2001%Q)); ("MO"%string, (Some 1%Q)); ("DY"%string, (Some 1%Q)); ("HR"%string, (Some 17%Q)); ("LAT"%string, (Some (5096554564524743 # 1000000000000000)%Q)); ("LON"%string, (Some 0%Q)); ("DS"%string, (Some 8%Q)); ("VS"%string, (Some 4%Q))]); (new_report (Some "SHIP1    "%string) None [("YR"%string, (Some 2001%Q)); ("MO"%string, (Some 1%Q)); ("DY"%string, (Some 1%Q)); ("HR"%string, (Some 18%Q)); ("LAT"%string, (Some (2158540756739891 # 400000000000000)%Q)); ("LON"%string, (Some 0%Q)); ("DS"%string, (Some 8%Q)); ("VS"%string, (Some 4%Q))]); (new_report (Some "SHIP1    "%string) None [("YR"%string, (Some 2001%Q)); ("MO"%string, (Some 1%Q)); ("DY"%string, (Some 1%Q)); ("HR"%string, (Some 19%Q)); ("LAT"%string, (Some (712018652396839 # 125000000000000)%Q)); ("LON"%string, (Some 0%Q)); ("DS"%string, (Some 8%Q)); ("VS"%string, (Some 4%Q))]); (new_report (Some "SHIP1    "%string) None [("YR"%string, (Some 2001%Q)); ("MO"%string, (Some 1%Q)); ("DY"%string, (Some 1%Q)); ("HR"%string, (Some 20%Q)); ("LAT"%string, (Some (5995946546499697 # 1000000000000000)%Q)); ("LON"%string, (Some 0%Q)); ("DS"%string, (Some 8%Q)); ("VS"%string, (Some 4%Q))]); (new_report (Some "SHIP1    "%string) None [("YR"%string, (Some 2001%Q)); ("MO"%string, (Some 1%Q)); ("DY"%string, (Some 1%Q)); ("HR"%string, (Some 21%Q)); ("LAT"%string, (Some (3147871936912341 # 500000000000000)%Q)); ("LON"%string, (Some 0%Q)); ("DS"%string, (Some 8%Q)); ("VS"%string, (Some 4%Q))]); (new_report (Some "SHIP1    "%string) None [("YR"%string, (Some 2001%Q)); ("MO"%string, (Some 1%Q)); ("DY"%string, (Some 1%Q)); ("HR"%string, (Some 22%Q)); ("LAT"%string, (Some (2638216480459867 # 400000000000000)%Q)); ("LON"%string, (Some 0%Q)); ("DS"%string, (Some 8%Q)); ("VS"%string, (Some 4%Q))]); (new_report (Some "SHIP1    "%string) None [("YR"%string, (Some 2001%Q)); ("MO"%string, (Some 1%Q)); ("DY"%string, (Some 1%Q)); ("HR"%string, (Some 23%Q)); ("LAT"%string, (Some (1723834632118663 # 250000000000000)%Q)); ("LON"%string, (Some 0%Q)); ("DS"%string, (Some 8%Q)); ("VS"%string, (Some 4%Q))])]) (distr2 earth)) in
  all [near (1 # 100000) (rs (fun l => rs (opt ofQ) (at_ l 1)) x1) (VNum 0);
  near (1 # 100000) (rs (fun l => rs (opt ofQ) (at_ l 2)) x1) (VNum 0);
  near (1 # 100000) (rs (fun l => rs (opt ofQ) (at_ l 3)) x1) (VNum 0);
  near (1 # 100000) (rs (fun l => rs (opt ofQ) (at_ l 4)) x1) (VNum 0);
  near (1 # 100000) (rs (fun l => rs (opt ofQ) (at_ l 5)) x1) (VNum 0);
  near (1 # 100000) (rs (fun l => rs (opt ofQ) (at_ l 6)) x1) (VNum 0);
  near (1 # 100000) (rs (fun l => rs (opt ofQ) (at_ l 7)) x1) (VNum 0);
  near (1 # 100000) (rs (fun l => rs (opt ofQ) (at_ l 8)) x1) (VNum 0);
  near (1 # 100000) (rs (fun l => rs (opt ofQ) (at_ l 9)) x1) (VNum 0);
  near (1 # 100000) (rs (fun l => rs (opt ofQ) (at_ l 10)) x1) (VNum 0);
  near (1 # 100000) (rs (fun l => rs (opt ofQ) (at_ l 11)) x1) (VNum 0);
  near (1 # 100000) (rs (fun l => rs (opt ofQ) (at_ l 12)) x1) (VNum 0);
  near (1 # 100000) (rs (fun l => rs (opt ofQ) (at_ l 13)) x1) (VNum 0);
  near (1 # 100000) (rs (fun l => rs (opt ofQ) (at_ l 14)) x1) (VNum 0);
  near (1 # 100000) (rs (fun l => rs (opt ofQ) (at_ l 15)) x1) (VNum 0);
  near (1 # 100000) (rs (fun l => rs (opt ofQ) (at_ l 16)) x1) (VNum 0);
  near (1 # 100000) (rs (fun l => rs (opt ofQ) (at_ l 17)) x1) (VNum 0);
  near (1 # 100000) (rs (fun l => rs (opt ofQ) (at_ l 18)) x1) (VNum 0);
  near (1 # 100000) (rs (fun l => rs (opt ofQ) (at_ l 19)) x1) (VNum 0);
  near (1 # 100000) (rs (fun l => rs (opt ofQ) (at_ l 20)) x1) (VNum 0);
  near (1 # 100000) (rs (fun l => rs (opt ofQ) (at_ l 21)) x1) (VNum 0);
  near (1 # 100000) (rs (fun l => rs (opt ofQ) (at_ l 22)) x1) (VNum 0)]).
Example TestTrackQCMethodsDistr2_test_ship_is_at_computed_location_is : TestTrackQCMethodsDistr2_test_ship_is_at_computed_location = true.
Proof. reflexivity. Qed.
Definition TestTrackQCMethodsDistr2_test_misplaced_ob_out_by_1degree_times_coslat : bool := Eval vm_compute in (let x1 := (on (voyage_of [] [(new_report (Some "SHIP1    "%string) None [("YR"%string, (Some 2001%Q)); ("MO"%string, (Some 1%Q)); ("DY"%string, (Some 1%Q)); ("HR"%string, (Some 0%Q)); ("LAT"%string, (Some 0%Q)); ("LON"%string, (Some 0%Q)); ("DS"%string, (Some 8%Q)); ("VS"%string, (Some 4%Q))]); (on (new_report (Some "SHIP1    "%string) None [("YR"%string, (Some 2001%Q)); ("MO"%string, (Some 1%Q)); ("DY"%string, (Some 1%Q)); ("HR"%string, (Some 1%Q)); ("LAT"%string, (Some (374746659156231 # 1250000000000000)%Q)); ("LON"%string, (Some 0%Q)); ("DS"%string, (Some 8%Q)); ("VS"%string, (Some 4%Q))]) (fun r => setvar r "LON"%string (Some 1%Q))); (new_report (Some "SHIP1    "%string) None [("YR"%string, (Some 2001%Q)); ("MO"%string, (Some 1%Q)); ("DY"%string, (Some 1%Q)); ("HR"%string, (Some 2%Q)); ("LAT"%string, (Some (374746659156231 # 625000000000000)%Q)); ("LON"%string, (Some 0%Q)); ("DS"%string, (Some 8%Q)); ("VS"%string, (Some 4%Q))])]) (distr2 earth)) in
  all [near (1 # 100000) (rs (fun l => rs (opt ofQ) (at_ l 1)) x1) (VNum (11119355805765677 # 100000000000000))]).
Example TestTrackQCMethodsDistr2_test_misplaced_ob_out_by_1degree_times_coslat_is : TestTrackQCMethodsDistr2_test_misplaced_ob_out_by_1degree_times_coslat = true.
Proof. reflexivity. Qed.
Definition TestTrackQCMethodsMidpt_test_first_and_last_are_missing : bool := Eval vm_compute in (let x1 := (on (voyage_of [] [(new_report (Some "SHIP1    "%string) None [("YR"%string, (Some 2001%Q)); ("MO"%string, (Some 1%Q)); ("DY"%string, (Some 1%Q)); ("HR"%string, (Some 0%Q)); ("LAT"%string, (Some 0%Q)); ("LON"%string, (Some 0%Q)); ("DS"%string, (Some 8%Q)); ("VS"%string, (Some 4%Q))]); (new_report (Some "SHIP1    "%string) None [("YR"%string, (Some 2001%Q)); ("MO"%string, (Some 1%Q)); ("DY"%string, (Some 1%Q)); ("HR"%string, (Some 1%Q)); ("LAT"%string, (Some (374746659156231 # 1250000000000000)%Q)); ("LON"%string, (Some 0%Q)); ("DS"%string, (Some 8%Q)); ("VS"%string, (Some 4%Q))]); (new_report (Some "SHIP1    "%string) None [("YR"%string, (Some 2001%Q)); ("MO"%string, (Some 1%Q)); ("DY"%string, (Some 1%Q)); ("HR"%string, (Some 2%Q)); ("LAT"%string, (Some (374746659156231 # 625000000000000)%Q)); ("LON"%string, (Some 0%Q)); ("DS"%string, (Some 8%Q)); ("VS"%string, (Some 4%Q))]); (new_report (Some "SHIP1    "%string) None [("YR"%string, (Some 2001%Q)); ("MO"%string, (Some 1%Q)); ("DY"%string, (Some 1%Q)); ("HR"%string, (Some 3%Q)); ("LAT"%string, (Some (4496959909874773 # 5000000000000000)%Q)); ("LON"%string, (Some 0%Q)); ("DS"%string, (Some 8%Q)); ("VS"%string, (Some 4%Q))]); (new_report (Some "SHIP1    "%string) None [("YR"%string, (Some 2001%Q)); ("MO"%string, (Some 1%Q)); ("DY"%string, (Some 1%Q)); ("HR"%string, (Some 4%Q)); ("LAT"%string, (Some (11991893092999393 # 10000000000000000)%Q)); ("LON"%string, (Some 0%Q)); ("DS"%string, (Some 8%Q)); ("VS"%string, (Some 4%Q))]); (new_report (Some "SHIP1    "%string) None [("YR"%string, (Some 2001%Q)); ("MO"%string, (Some 1%Q)); ("DY"%string, (Some 1%Q)); ("HR"%string, (Some 5%Q)); ("LAT"%string, (Some (14989866366249243 # 10000000000000000)%Q)); ("LON"%string, (Some 0%Q)); ("DS"%string, (Some 8%Q)); ("VS"%string, (Some 4%Q))]); (new_report (Some "SHIP1    "%string) None [("YR"%string, (Some 2001%Q)); ("MO"%string, (Some 1%Q)); ("DY"%string, (Some 1%Q)); ("HR"%string, (Some 6%Q)); ("LAT"%string, (Some (4496959909874773 # 2500000000000000)%Q)); ("LON"%string, (Some 0%Q)); ("DS"%string, (Some 8%Q)); ("VS"%string, (Some 4%Q))]); (new_report (Some "SHIP1    "%string) None [("YR"%string, (Some 2001%Q)); ("MO"%string, (Some 1%Q)); ("DY"%string, (Some 1%Q)); ("HR"%string, (Some 7%Q)); ("LAT"%string, (Some (1049290645637447 # 500000000000000)%Q)); ("LON"%string, (Some 0%Q)); ("DS"%string, (Some 8%Q)); ("VS"%string, (Some 4%Q))]); (new_report (Some "SHIP1    "%string) None [("YR"%string, (Some 2001%Q)); ("MO"%string, (Some 1%Q)); ("DY"%string, (Some 1%Q)); ("HR"%string, (Some 8%Q)); ("LAT"%string, (Some (11991893092999393 # 5000000000000000)%Q)); ("LON"%string, (Some 0%Q)); ("DS"%string, (Some 8%Q)); ("VS"%string, (Some 4%Q))]); (new_report (Some "SHIP1    "%string) None [("YR"%string, (Some 2001%Q)); ("MO"%string, (Some 1%Q)); ("DY"%string, (Some 1%Q)); ("HR"%string, (Some 9%Q)); ("LAT"%string, (Some (13490879729624319 # 5000000000000000)%Q)); ("LON"%string, (Some 0%Q)); ("DS"%string, (Some 8%Q)); ("VS"%string, (Some 4%Q))]); (new_report (Some "SHIP1    "%string) None [("YR"%string, (Some 2001%Q)); ("MO"%string, (Some 1%Q)); ("DY"%string, (Some 1%Q)); ("HR"%string, (Some 10%Q)); ("LAT"%string, (Some (5995946546499697 # 2000000000000000)%Q)); ("LON"%string, (Some 0%Q)); ("DS"%string, (Some 8%Q)); ("VS"%string, (Some 4%Q))]); (new_report (Some "SHIP1    "%string) None [("YR"%string, (Some 2001%Q)); ("MO"%string, (Some 1%Q)); ("DY"%string, (Some 1%Q)); ("HR"%string, (Some 11%Q)); ("LAT"%string, (Some (32977706005748337 # 10000000000000000)%Q)); ("LON"%string, (Some 0%Q)); ("DS"%string, (Some 8%Q)); ("VS"%string, (Some 4%Q))]); (new_report (Some "SHIP1    "%string) None [("YR"%string, (Some 2001%Q)); ("MO"%string, (Some 1%Q)); ("DY"%string, (Some 1%Q)); ("HR"%string, (Some 12%Q)); ("LAT"%string, (Some (7195135855799637 # 2000000000000000)%Q)); ("LON"%string, (Some 0%Q)); ("DS"%string, (Some 8%Q)); ("VS"%string, (Some 4%Q))]); (new_report (Some "SHIP1    "%string) None [("YR"%string, (Some 2001%Q)); ("MO"%string, (Some 1%Q)); ("DY"%string, (Some 1%Q)); ("HR"%string, (Some 13%Q)); ("LAT"%string, (Some (38973652552248033 # 10000000000000000)%Q)); ("LON"%string, (Some 0%Q)); ("DS"%string, (Some 8%Q)); ("VS"%string, (Some 4%Q))]); (new_report (Some "SHIP1    "%string) None [("YR"%string, (Some 2001%Q)); ("MO"%string, (Some 1%Q)); ("DY"%string, (Some 1%Q)); ("HR"%string, (Some 14%Q)); ("LAT"%string, (Some (1049290645637447 # 250000000000000)%Q)); ("LON"%string, (Some 0%Q)); ("DS"%string, (Some 8%Q)); ("VS"%string, (Some 4%Q))]); (new_report (Some "SHIP1    "%string) None [("YR"%string, (Some 2001%Q)); ("MO"%string, (Some 1%Q)); ("DY"%string, (Some 1%Q)); ("HR"%string, (Some 15%Q)); ("LAT"%string, (Some (1124239977468693 # 250000000000000)%Q)); ("LON"%string, (Some 0%Q)); ("DS"%string, (Some 8%Q)); ("VS"%string, (Some 4%Q))]); (new_report (Some "SHIP1    "%string) None [("YR"%string, (Some 2001%Q)); ("MO"%string, (Some 1%Q)); ("DY"%string, (Some 1%Q)); ("HR"%string, (Some 16%Q)); ("LAT"%string, (Some (4796757237199757 # 1000000000000000)%Q)); ("LON"%string, (Some 0%Q)); ("DS"%string, (Some 8%Q)); ("VS"%string, (Some 4%Q))]); (new_report (Some "SHIP1    "%string) None [("YR"%string, (Some 2001%Q)); ("MO"%string, (Some 1%Q)); ("DY"%string, (Some 1%Q)); ("HR"%string, (Some 17%Q)); ("LAT"%string, (Some (5096554564524743 # 1000000000000000)%Q)); ("LON"%string, (Some 0%Q)); ("DS"%string, (Some 8%Q)); ("VS"%string, (Some 4%Q))]); (new_report (Some "SHIP1    "%string) None [("YR"%string, (Some 2001%Q)); ("MO"%string, (Some 1%Q)); ("DY"%string, (Some 1%Q)); ("HR"%string, (Some 18%Q)); ("LAT"%string, (Some (2158540756739891 # 400000000000000)%Q)); ("LON"%string, (Some 0%Q)); ("DS"%string, (Some 8%Q)); ("VS"%string, (Some 4%Q))]); (new_report (Some "SHIP1    "%string) None [("YR"%string, (Some 2001%Q)); ("MO"%string, (Some 1%Q)); ("DY"%string, (Some 1%Q)); ("HR"%string, (Some 19%Q)); ("LAT"%string, (Some (712018652396839 # 125000000000000)%Q)); ("LON"%string, (Some 0%Q)); ("DS"%string, (Some 8%Q)); ("VS"%string, (Some 4%Q))]); (new_report (Some "SHIP1    "%string) None [("YR"%string, (Some 2001%Q)); ("MO"%string, (Some 1%Q)); ("DY"%string, (Some 1%Q)); ("HR"%string, (Some 20%Q)); ("LAT"%string, (Some (5995946546499697 # 1000000000000000)%Q)); ("LON"%string, (Some 0%Q)); ("DS"%string, (Some 8%Q)); ("VS"%string, (Some 4%Q))]); (new_report (Some "SHIP1    "%string) None [("YR"%string, (Some 2001%Q)); ("MO"%string, (Some 1%Q)); ("DY"%string, (Some 1%Q)); ("HR"%string, (Some 21%Q)); ("LAT"%string, (Some (3147871936912341 # 500000000000000)%Q)); ("LON"%string, (Some 0%Q)); ("DS"%string, (Some 8%Q)); ("VS"%string, (Some 4%Q))]); (new_report (Some "SHIP1    "%string) None [("YR"%string, (Some 2001%Q)); ("MO"%string, (Some 1%Q)); ("DY"%string, (Some 1%Q)); ("HR"%string, (Some 22%Q)); ("LAT"%string, (Some (2638216480459867 # 400000000000000)%Q)); ("LON"%string, (Some 0%Q)); ("DS"%string, (Some 8%Q)); ("VS"%string, (Some 4%Q))]); (new_report (Some "SHIP1    "%string) None [("YR"%string, (Some 2001%Q)); ("MO"%string, (Some 1%Q)); ("DY"%string, (Some 1%Q)); ("HR"%string, (Some 23%Q)); ("LAT"%string, (Some (1723834632118663 # 250000000000000)%Q)); ("LON"%string, (Some 0%Q)); ("DS"%string, (Some 8%Q)); ("VS"%string, (Some 4%Q))])]) (midpt earth)) in
  all [same (rs (fun l => rs (opt ofQ) (at_ l 0)) x1) VNone;
  same (rs (fun l => rs (opt ofQ) (at_ l 23)) x1) VNone]).
Example TestTrackQCMethodsMidpt_test_first_and_last_are_missing_is : TestTrackQCMethodsMidpt_test_first_and_last_are_missing = true.
Proof. reflexivity. Qed.
Definition TestTrackQCMethodsMidpt_test_midpt_1_deg_error_out_by_60coslat : bool := Eval vm_compute in (let x1 := (on (voyage_of [] [(new_report (Some "SHIP1    "%string) None [("YR"%string, (Some 2001%Q)); ("MO"%string, (Some 1%Q)); ("DY"%string, (Some 1%Q)); ("HR"%string, (Some 0%Q)); ("LAT"%string, (Some 0%Q)); ("LON"%string, (Some 0%Q)); ("DS"%string, (Some 8%Q)); ("VS"%string, (Some 4%Q))]); (on (new_report (Some "SHIP1    "%string) None [("YR"%string, (Some 2001%Q)); ("MO"%string, (Some 1%Q)); ("DY"%string, (Some 1%Q)); ("HR"%string, (Some 1%Q)); ("LAT"%string, (Some (374746659156231 # 1250000000000000)%Q)); ("LON"%string, (Some 0%Q)); ("DS"%string, (Some 8%Q)); ("VS"%string, (Some 4%Q))]) (fun r => setvar r "LON"%string (Some 1%Q))); (new_report (Some "SHIP1    "%string) None [("YR"%string, (Some 2001%Q)); ("MO"%string, (Some 1%Q)); ("DY"%string, (Some 1%Q)); ("HR"%string, (Some 2%Q)); ("LAT"%string, (Some (374746659156231 # 625000000000000)%Q)); ("LON"%string, (Some 0%Q)); ("DS"%string, (Some 8%Q)); ("VS"%string, (Some 4%Q))])]) (midpt earth)) in
  all [near (1 # 100000) (rs (fun l => rs (opt ofQ) (at_ l 1)) x1) (VNum (11119355805765677 # 100000000000000))]).
Example TestTrackQCMethodsMidpt_test_midpt_1_deg_error_out_by_60coslat_is : TestTrackQCMethodsMidpt_test_midpt_1_deg_error_out_by_60coslat = true.
Proof. reflexivity. Qed.
Definition TestTrackQCMethodsMidpt_test_midpt_at_computed_location : bool := Eval vm_compute in (let x1 := (on (voyage_of [] [(new_report (Some "SHIP1    "%string) None [("YR"%string, (Some 2001%Q)); ("MO"%string, (Some 1%Q)); ("DY"%string, (Some 1%Q)); ("HR"%string, (Some 0%Q)); ("LAT"%string, (Some 0%Q)); ("LON"%string, (Some 0%Q)); ("DS"%string, (Some 8%Q)); ("VS"%string, (Some 4%Q))]); (new_report (Some "SHIP1    "%string) None [("YR"%string, (Some 2001%Q)); ("MO"%string, (Some 1%Q)); ("DY"%string, (Some 1%Q)); ("HR"%string, (Some 1%Q)); ("LAT"%string, (Some (374746659156231 # 1250000000000000)%Q)); ("LON"%string, (Some 0%Q)); ("DS"%string, (Some 8%Q)); ("VS"%string, (Some 4%Q))]); (new_report (Some "SHIP1    "%string) None [("YR"%string, (Some 2001%Q)); ("MO"%string, (Some 1%Q)); ("DY"%string, (Some 1%Q)); ("HR"%string, (Some 2%Q)); ("LAT"%string, (Some (374746659156231 # 625000000000000)%Q)); ("LON"%string, (Some 0%Q)); ("DS"%string, (Some 8%Q)); ("VS"%string, (Some 4%Q))]); (new_report (Some "SHIP1    "%string) None [("YR"%string, (Some 2001%Q)); ("MO"%string, (Some 1%Q)); ("DY"%string, (Some 1%Q)); ("HR"%string, (Some 3%Q)); ("LAT"%string, (Some (4496959909874773 # 5000000000000000)%Q)); ("LON"%string, (Some 0%Q)); ("DS"%string, (Some 8%Q)); ("VS"%string, (Some 4%Q))]); (new_report (Some "SHIP1    "%string) None [("YR"%string, (Some 2001%Q)); ("MO"%string, (Some 1%Q)); ("DY"%string, (Some 1%Q)); ("HR"%string, (Some 4%Q)); ("LAT"%string, (Some (11991893092999393 # 10000000000000000)%Q)); ("LON"%string, (Some 0%Q)); ("DS"%string, (Some 8%Q)); ("VS"%string, (Some 4%Q))]); (new_report (Some "SHIP1    "%string) None [("YR"%string, (Some 2001%Q)); ("MO"%string, (Some 1%Q)); ("DY"%string, (Some 1%Q)); ("HR"%string, (Some 5%Q)); ("LAT"%string, (Some (14989866366249243 # 10000000000000000)%Q)); ("LON"%string, (Some 0%Q)); ("DS"%string, (Some 8%Q)); ("VS"%string, (Some 4%Q))]); (new_report (Some "SHIP1    "%string) None [("YR"%string, (Some 2001%Q)); ("MO"%string, (Some 1%Q)); ("DY"%string, (Some 1%Q)); ("HR"%string, (Some 6%Q)); ("LAT"%string, (Some (4496959909874773 # 2500000000000000)%Q)); ("LON"%string, (Some 0%Q)); ("DS"%string, (Some 8%Q)); ("VS"%string, (Some 4%Q))]); (new_report (Some "SHIP1    "%string) None [("YR"%string, (Some 2001%Q)); ("MO"%string, (Some 1%Q)); ("DY"%string, (Some 1%Q)); ("HR"%string, (Some 7%Q)); ("LAT"%string, (Some (1049290645637447 # 500000000000000)%Q)); ("LON"%string, (Some 0%Q)); ("DS"%string, (Some 8%Q)); ("VS"%string, (Some 4%Q))]); (new_report (Some "SHIP1    "%string) None [("YR"%string, (Some 2001%Q)); ("MO"%string, (Some 1%Q)); ("DY"%string, (Some 1%Q)); ("HR"%string, (Some 8%Q)); ("LAT"%string, (Some (11991893092999393 # 5000000000000000)%Q)); ("LON"%string, (Some 0%Q)); ("DS"%string, (Some 8%Q)); ("VS"%string, (Some 4%Q))]); (new_report (Some "SHIP1    "%string) None [("YR"%string, (Some 2001%Q)); ("MO"%string, (Some 1%Q)); ("DY"%string, (Some 1%Q)); ("HR"%string, (Some 9%Q)); ("LAT"%string, (Some (13490879729624319 # 5000000000000000)%Q)); ("LON"%string, (Some 0%Q)); ("DS"%string, (Some 8%Q)); ("VS"%string, (Some 4%Q))]); (new_report (Some "SHIP1    "%string) None [("YR"%string, (Some 2001%Q)); ("MO"%string, (Some 1%Q)); ("DY"%string, (Some 1%Q)); ("HR"%string, (Some 10%Q)); ("LAT"%string, (Some (5995946546499697 # 2000000000000000)%Q)); ("LON"%string, (Some 0%Q)); ("DS"%string, (Some 8%Q)); ("VS"%string, (Some 4%Q))]); (new_report (Some "SHIP1    "%string) None [("YR"%string, (Some 2001%Q)); ("MO"%string, (Some 1%Q)); ("DY"%string, (Some 1%Q)); ("HR"%string, (Some 11%Q)); ("LAT"%string, (Some (32977706005748337 # 10000000000000000)%Q)); ("LON"%string, (Some 0%Q)); ("DS"%string, (Some 8%Q)); ("VS"%string, (Some 4%Q))]); (new_report (Some "SHIP1    "%string) None [("YR"%string, (Some 2001%Q)); ("MO"%string, (Some 1%Q)); ("DY"%string, (Some 1%Q)); ("HR"%string, (Some 12%Q)); ("LAT"%string, (Some (7195135855799637 # 2000000000000000)%Q)); ("LON"%string, (Some 0%Q)); ("DS"%string, (Some 8%Q)); ("VS"%string, (Some 4%Q))]); (new_report (Some "SHIP1    "%string) None [("YR"%string, (Some 2001%Q)); ("MO"%string, (Some 1%Q)); ("DY"%string, (Some 1%Q)); ("HR"%string, (Some 13%Q)); ("LAT"%string, (Some (38973652552248033 # 10000000000000000)%Q)); ("LON"%string, (Some 0%Q)); ("DS"%string, (Some 8%Q)); ("VS"%string, (Some 4%Q))]); (new_report (Some "SHIP1    "%string) None [("YR"%string, (Some 2001%Q)); ("MO"%string, (Some 1%Q)); ("DY"%string, (Some 1%Q)); ("HR"%string, (Some 14%Q)); ("LAT"%string, (Some (1049290645637447 # 250000000000000)%Q)); ("LON"%string, (Some 0%Q)); ("DS"%string, (Some 8%Q)); ("VS"%string, (Some 4%Q))]); (new_report (Some "SHIP1    "%string) None [("YR"%string, (Some 2001%Q)); ("MO"%string, (Some 1%Q)); ("DY"%string, (Some 1%Q)); ("HR"%string, (Some 15%Q)); ("LAT"%string, (Some (1124239977468693 # 250000000000000)%Q)); ("LON"%string, (Some 0%Q)); ("DS"%string, (Some 8%Q)); ("VS"%string, (Some 4%Q))]); (new_report (Some "SHIP1    "%string) None [("YR"%string, (Some 2001%Q)); ("MO"%string, (Some 1%Q)); ("DY"%string, (Some 1%Q)); ("HR"%string, (Some 16%Q)); ("LAT"%string, (Some (4796757237199757 # 1000000000000000)%Q)); ("LON"%string, (Some 0%Q)); ("DS"%string, (Some 8%Q)); ("VS"%string, (Some 4%Q))]); (new_report (Some "SHIP1    "%string) None [("YR"%string, (Some 2001%Q)); ("MO"%string, (Some 1%Q)); ("DY"%string, (Some 1%Q)); ("HR"%string, (Some 17%Q)); ("LAT"%string, (Some (5096554564524743 # 1000000000000000)%Q)); ("LON"%string, (Some 0%Q)); ("DS"%string, (Some 8%Q)); ("VS"%string, (Some 4%Q))]); (new_report (Some "SHIP1    "%string) None [("YR"%string, (Some 2001%Q)); ("MO"%string, (Some 1%Q)); ("DY"%string, (Some 1%Q)); ("HR"%string, (Some 18%Q)); ("LAT"%string, (Some (2158540756739891 # 400000000000000)%Q)); ("LON"%string, (Some 0%Q)); ("DS"%string, (Some 8%Q)); ("VS"%string, (Some 4%Q))]); (new_report (Some "SHIP1    "%string) None [("YR"%string, (Some 2001%Q)); ("MO"%string, (Some 1%Q)); ("DY"%string, (Some 1%Q)); ("HR"%string, (Some 19%Q)); ("LAT"%string, (Some (712018652396839 # 125000000000000)%Q)); ("LON"%string, (Some 0%Q)); ("DS"%string, (Some 8%Q)); ("VS"%string, (Some 4%Q))]); (new_report (Some "SHIP1    "%string) None [("YR"%string, (Some 2001%Q)); ("MO"%string, (Some 1%Q)); ("DY"%string, (Some 1%Q)); ("HR"%string, (Some 20%Q)); ("LAT"%string, (Some (5995946546499697 # 1000000000000000)%Q)); ("LON"%string, (Some 0%Q)); ("DS"%string, (Some 8%Q)); ("VS"%string, (Some 4%Q))]); (new_report (Some "SHIP1    "%string) None [("YR"%string, (Some 2001%Q)); ("MO"%string, (Some 1%Q)); ("DY"%string, (Some 1%Q)); ("HR"%string, (Some 21%Q)); ("LAT"%string, (Some (3147871936912341 # 500000000000000)%Q)); ("LON"%string, (Some 0%Q)); ("DS"%string, (Some 8%Q)); ("VS"%string, (Some 4%Q))]); (new_report (Some "SHIP1    "%string) None [("YR"%string, (Some 2001%Q)); ("MO"%string, (Some 1%Q)); ("DY"%string, (Some 1%Q)); ("HR"%string, (Some 22%Q)); ("LAT"%string, (Some (2638216480459867 # 400000000000000)%Q)); ("LON"%string, (Some 0%Q)); ("DS"%string, (Some 8%Q)); ("VS"%string, (Some 4%Q))]); (new_report (Some "SHIP1    "%string) None [("YR"%string, (Some 2001%Q)); ("MO"%string, (Some 1%Q)); ("DY"%string, (Some 1%Q)); ("HR"%string, (Some 23%Q)); ("LAT"%string, (Some (1723834632118663 # 250000000000000)%Q)); ("LON"%string, (Some 0%Q)); ("DS"%string, (Some 8%Q)); ("VS"%string, (Some 4%Q))])]) (midpt earth)) in
  all [negb (same (rs (fun l => rs (opt ofQ) (at_ l 1)) x1) VNone);
  near (1 # 100000) (rs (fun l => rs (opt ofQ) (at_ l 1)) x1) (VNum 0);
  negb (same (rs (fun l => rs (opt ofQ) (at_ l 2)) x1) VNone);
  near (1 # 100000) (rs (fun l => rs (opt ofQ) (at_ l 2)) x1) (VNum 0);
  negb (same (rs (fun l => rs (opt ofQ) (at_ l 3)) x1) VNone);
  near (1 # 100000) (rs (fun l => rs (opt ofQ) (at_ l 3)) x1) (VNum 0);
  negb (same (rs (fun l => rs (opt ofQ) (at_ l 4)) x1) VNone);
  near (1 # 100000) (rs (fun l => rs (opt ofQ) (at_ l 4)) x1) (VNum 0);
  negb (same (rs (fun l => rs (opt ofQ) (at_ l 5)) x1) VNone);
  near (1 # 100000) (rs (fun l => rs (opt ofQ) (at_ l 5)) x1) (VNum 0);
  negb (same (rs (fun l => rs (opt ofQ) (at_ l 6)) x1) VNone);
  near (1 # 100000) (rs (fun l => rs (opt ofQ) (at_ l 6)) x1) (VNum 0);
  negb (same (rs (fun l => rs (opt ofQ) (at_ l 7)) x1) VNone);
  near (1 # 100000) (rs (fun l => rs (opt ofQ) (at_ l 7)) x1) (VNum 0);
  negb (same (rs (fun l => rs (opt ofQ) (at_ l 8)) x1) VNone);
  near (1 # 100000) (rs (fun l => rs (opt ofQ) (at_ l 8)) x1) (VNum 0);
  negb (same (rs (fun l => rs (opt ofQ) (at_ l 9)) x1) VNone);
  near (1 # 100000) (rs (fun l => rs (opt ofQ) (at_ l 9)) x1) (VNum 0);
  negb (same (rs (fun l => rs (opt ofQ) (at_ l 10)) x1) VNone);
  near (1 # 100000) (rs (fun l => rs (opt ofQ) (at_ l 10)) x1) (VNum 0);
  negb (same (rs (fun l => rs (opt ofQ) (at_ l 11)) x1) VNone);
  near (1 # 100000) (rs (fun l => rs (opt ofQ) (at_ l 11)) x1) (VNum 0);
  negb (same (rs (fun l => rs (opt ofQ) (at_ l 12)) x1) VNone);
  near (1 # 100000) (rs (fun l => rs (opt ofQ) (at_ l 12)) x1) (VNum 0);
  negb (same (rs (fun l => rs (opt ofQ) (at_ l 13)) x1) VNone);
  near (1 # 100000) (rs (fun l => rs (opt ofQ) (at_ l 13)) x1) (VNum 0);
  negb (same (rs (fun l => rs (opt ofQ) (at_ l 14)) x1) VNone);
  near (1 # 100000) (rs (fun l => rs (opt ofQ) (at_ l 14)) x1) (VNum 0);
  negb (same (rs (fun l => rs (opt ofQ) (at_ l 15)) x1) VNone);
  near (1 # 100000) (rs (fun l => rs (opt ofQ) (at_ l 15)) x1) (VNum 0);
  negb (same (rs (fun l => rs (opt ofQ) (at_ l 16)) x1) VNone);
  near (1 # 100000) (rs (fun l => rs (opt ofQ) (at_ l 16)) x1) (VNum 0);
  negb (same (rs (fun l => rs (opt ofQ) (at_ l 17)) x1) VNone);
  near (1 # 100000) (rs (fun l => rs (opt ofQ) (at_ l 17)) x1) (VNum 0);
  negb (same (rs (fun l => rs (opt ofQ) (at_ l 18)) x1) VNone);
  near (1 # 100000) (rs (fun l => rs (opt ofQ) (at_ l 18)) x1) (VNum 0);
  negb (same (rs (fun l => rs (opt ofQ) (at_ l 19)) x1) VNone);
  near (1 # 100000) (rs (fun l => rs (opt ofQ) (at_ l 19)) x1) (VNum 0);
  negb (same (rs (fun l => rs (opt ofQ) (at_ l 20)) x1) VNone);
  near (1 # 100000) (rs (fun l => rs (opt ofQ) (at_ l 20)) x1) (VNum 0);
  negb (same (rs (fun l => rs (opt ofQ) (at_ l 21)) x1) VNone);
  near (1 # 100000) (rs (fun l => rs (opt ofQ) (at_ l 21)) x1) (VNum 0);
  negb (same (rs (fun l => rs (opt ofQ) (at_ l 22)) x1) VNone);
  near (1 # 100000) (rs (fun l => rs (opt ofQ) (at_ l 22)) x1) (VNum 0)]).
Example TestTrackQCMethodsMidpt_test_midpt_at_computed_location_is : TestTrackQCMethodsMidpt_test_midpt_at_computed_location = true.
Proof. reflexivity. Qed.
Definition TestTrackQCMethodsDirectionContinuity_test_just_pass_and_just_fail : bool := Eval vm_compute in (all [same (VNum 10) (rs (fun b : bool => ofZ (if b then 10 else 0)) (direction_continuity (Some 0%Q) (Some 0%Q) (Some (601 # 10)%Q) 60));
  same (VNum 0) (rs (fun b : bool => ofZ (if b then 10 else 0)) (direction_continuity (Some 0%Q) (Some 0%Q) (Some (599 # 10)%Q) 60));
  same (VNum 10) (rs (fun b : bool => ofZ (if b then 10 else 0)) (direction_continuity (Some 45%Q) (Some 45%Q) (Some (1051 # 10)%Q) 60));
  same (VNum 0) (rs (fun b : bool => ofZ (if b then 10 else 0)) (direction_continuity (Some 45%Q) (Some 45%Q) (Some (1049 # 10)%Q) 60));
  same (VNum 10) (rs (fun b : bool => ofZ (if b then 10 else 0)) (direction_continuity (Some 90%Q) (Some 90%Q) (Some (1501 # 10)%Q) 60));
  same (VNum 0) (rs (fun b : bool => ofZ (if b then 10 else 0)) (direction_continuity (Some 90%Q) (Some 90%Q) (Some (1499 # 10)%Q) 60));
  same (VNum 10) (rs (fun b : bool => ofZ (if b then 10 else 0)) (direction_continuity (Some 135%Q) (Some 135%Q) (Some (1951 # 10)%Q) 60));
  same (VNum 0) (rs (fun b : bool => ofZ (if b then 10 else 0)) (direction_continuity (Some 135%Q) (Some 135%Q) (Some (1949 # 10)%Q) 60));
  same (VNum 10) (rs (fun b : bool => ofZ (if b then 10 else 0)) (direction_continuity (Some 180%Q) (Some 180%Q) (Some (2401 # 10)%Q) 60));
  same (VNum 0) (rs (fun b : bool => ofZ (if b then 10 else 0)) (direction_continuity (Some 180%Q) (Some 180%Q) (Some (2399 # 10)%Q) 60));
  same (VNum 10) (rs (fun b : bool => ofZ (if b then 10 else 0)) (direction_continuity (Some 225%Q) (Some 225%Q) (Some (2851 # 10)%Q) 60));
  same (VNum 0) (rs (fun b : bool => ofZ (if b then 10 else 0)) (direction_continuity (Some 225%Q) (Some 225%Q) (Some (2849 # 10)%Q) 60));
  same (VNum 10) (rs (fun b : bool => ofZ (if b then 10 else 0)) (direction_continuity (Some 270%Q) (Some 270%Q) (Some (3301 # 10)%Q) 60));
  same (VNum 0) (rs (fun b : bool => ofZ (if b then 10 else 0)) (direction_continuity (Some 270%Q) (Some 270%Q) (Some (3299 # 10)%Q) 60));
  same (VNum 10) (rs (fun b : bool => ofZ (if b then 10 else 0)) (direction_continuity (Some 315%Q) (Some 315%Q) (Some (3751 # 10)%Q) 60));
  same (VNum 0) (rs (fun b : bool => ofZ (if b then 10 else 0)) (direction_continuity (Some 315%Q) (Some 315%Q) (Some (3749 # 10)%Q) 60));
  same (VNum 10) (rs (fun b : bool => ofZ (if b then 10 else 0)) (direction_continuity (Some 360%Q) (Some 360%Q) (Some (4201 # 10)%Q) 60));
  same (VNum 0) (rs (fun b : bool => ofZ (if b then 10 else 0)) (direction_continuity (Some 360%Q) (Some 360%Q) (Some (4199 # 10)%Q) 60))]).
Example TestTrackQCMethodsDirectionContinuity_test_just_pass_and_just_fail_is : TestTrackQCMethodsDirectionContinuity_test_just_pass_and_just_fail = true.
Proof. reflexivity. Qed.
Definition TestTrackQCMethodsSpeedContinuity_test_1 : bool := Eval vm_compute in (all [same (VNum 0) (ofZ (if speed_continuity (Some 12%Q) (Some 12%Q) (Some (22223991910466943 # 1000000000000000)%Q) 10 then 10 else 0))]).
Example TestTrackQCMethodsSpeedContinuity_test_1_is : TestTrackQCMethodsSpeedContinuity_test_1 = true.
Proof. reflexivity. Qed.
Definition TestTrackQCMethodsSpeedContinuity_test_just_fails : bool := Eval vm_compute in (all [same (VNum 10) (ofZ (if speed_continuity (Some 12%Q) (Some 12%Q) (Some (8152501032489623 # 200000000000000)%Q) 10 then 10 else 0))]).
Example TestTrackQCMethodsSpeedContinuity_test_just_fails_is : TestTrackQCMethodsSpeedContinuity_test_just_fails = true.
Proof. reflexivity. Qed.
Definition TestTrackQCMethodsSpeedContinuity_test_just_passes : bool := Eval vm_compute in (all [same (VNum 0) (ofZ (if speed_continuity (Some 12%Q) (Some 12%Q) (Some (1018136629398267 # 25000000000000)%Q) 10 then 10 else 0))]).
Example TestTrackQCMethodsSpeedContinuity_test_just_passes_is : TestTrackQCMethodsSpeedContinuity_test_just_passes = true.
Proof. reflexivity. Qed.
Definition TestTrackQCMethodsSpeedContinuity_test_input_speed_is_None : bool := Eval vm_compute in (all [same (VNum 0) (ofZ (if speed_continuity (Some 12%Q) (Some 12%Q) None 10 then 10 else 0))]).
Example TestTrackQCMethodsSpeedContinuity_test_input_speed_is_None_is : TestTrackQCMethodsSpeedContinuity_test_input_speed_is_None = true.
Proof. reflexivity. Qed.
