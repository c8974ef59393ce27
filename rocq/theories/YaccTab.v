(** The LALR(1) automaton of /repo/xdr.y (made by tools/lalr.py; checked by [lr_ok] of YaccLR.v).  State 0 first. *)
From Coq Require Import List String.
From Verif Require Import YaccLR.
Import ListNotations.
Open Scope string_scope.

Definition x0 := "$end".
Definition x1 := "KWCONST".
Definition x2 := "KWENUM".
Definition x3 := "KWPROGRAM".
Definition x4 := "KWSTRUCT".
Definition x5 := "KWTYPEDEF".
Definition x6 := "KWUNION".
Definition x7 := "spec".
Definition x8 := "constdef".
Definition x9 := "defn".
Definition x10 := "progdef".
Definition x11 := "typedef".
Definition x12 := "IDENT".
Definition x13 := "';'".
Definition x14 := "'*'".
Definition x15 := "KWHYPER".
Definition x16 := "KWINT".
Definition x17 := "KWBOOL".
Definition x18 := "KWDOUBLE".
Definition x19 := "KWFLOAT".
Definition x20 := "KWOPAQUE".
Definition x21 := "KWQUADRUPLE".
Definition x22 := "KWSTRING".
Definition x23 := "KWUNSIGNED".
Definition x24 := "KWVOID".
Definition x25 := "decl".
Definition x26 := "enumtypespec".
Definition x27 := "maybeunsig".
Definition x28 := "structtypespec".
Definition x29 := "typespec".
Definition x30 := "uniontypespec".
Definition x31 := "'='".
Definition x32 := "'{'".
Definition x33 := "enumbody".
Definition x34 := "structbody".
Definition x35 := "')'".
Definition x36 := "KWSWITCH".
Definition x37 := "unionbody".
Definition x38 := "CONST".
Definition x39 := "','".
Definition x40 := "'}'".
Definition x41 := "enumitem".
Definition x42 := "enumitems".
Definition x43 := "KWVERSION".
Definition x44 := "progvers".
Definition x45 := "structdecls".
Definition x46 := "'<'".
Definition x47 := "'['".
Definition x48 := "varlen".
Definition x49 := "'('".
Definition x50 := "progver".
Definition x51 := "'>'".
Definition x52 := "val".
Definition x53 := "']'".
Definition x54 := "':'".
Definition x55 := "progcalls".
Definition x56 := "KWCASE".
Definition x57 := "KWDEFAULT".
Definition x58 := "unioncases".
Definition x59 := "unioncasesdef".
Definition x60 := "progcall".
Definition x61 := "typespecopt".
Definition x62 := "caselist".
Definition x63 := "unioncase".
Definition x64 := "$accept".

Definition xdr_tab : lrtab := mkTab [
  mkLR [(0, 0, [x0; x1; x2; x3; x4; x5; x6]); (1, 0, [x0; x1; x2; x3; x4; x5; x6]); (61, 0, [x0])]
    [] [] (Some 0)
    [(x7, 1)];
  mkLR [(1, 1, [x0; x1; x2; x3; x4; x5; x6]); (2, 0, [x0; x1; x2; x3; x4; x5; x6]); (3, 0, [x0; x1; x2; x3; x4; x5; x6]); (4, 0, [x0; x1; x2; x3; x4; x5; x6]); (47, 0, [x0; x1; x2; x3; x4; x5; x6]); (48, 0, [x0; x1; x2; x3; x4; x5; x6]); (49, 0, [x0; x1; x2; x3; x4; x5; x6]); (50, 0, [x0; x1; x2; x3; x4; x5; x6]); (51, 0, [x0; x1; x2; x3; x4; x5; x6]); (52, 0, [x0; x1; x2; x3; x4; x5; x6]); (61, 1, [x0])]
    [(x1, 2); (x2, 3); (x3, 4); (x4, 5); (x5, 6); (x6, 7)] [(x0, 61)] None
    [(x8, 8); (x9, 9); (x10, 10); (x11, 11)];
  mkLR [(47, 1, [x0; x1; x2; x3; x4; x5; x6])]
    [(x12, 12)] [] None
    [];
  mkLR [(49, 1, [x0; x1; x2; x3; x4; x5; x6])]
    [(x12, 13)] [] None
    [];
  mkLR [(52, 1, [x0; x1; x2; x3; x4; x5; x6])]
    [(x12, 14)] [] None
    [];
  mkLR [(50, 1, [x0; x1; x2; x3; x4; x5; x6])]
    [(x12, 15)] [] None
    [];
  mkLR [(5, 0, [x13]); (6, 0, [x13]); (7, 0, [x13]); (8, 0, [x13]); (9, 0, [x13]); (10, 0, [x13]); (11, 0, [x13]); (12, 0, [x13]); (17, 0, [x14; x12]); (18, 0, [x14; x12]); (19, 0, [x14; x12]); (20, 0, [x14; x12]); (21, 0, [x14; x12]); (22, 0, [x14; x12]); (23, 0, [x14; x12]); (24, 0, [x14; x12]); (25, 0, [x14; x12]); (26, 0, [x14; x12]); (27, 0, [x15; x16]); (28, 0, [x15; x16]); (29, 0, [x14; x12]); (34, 0, [x14; x12]); (38, 0, [x14; x12]); (48, 1, [x0; x1; x2; x3; x4; x5; x6])]
    [(x12, 16); (x17, 17); (x18, 18); (x2, 19); (x19, 20); (x20, 21); (x21, 22); (x22, 23); (x4, 24); (x6, 25); (x23, 26); (x24, 27)] [] (Some 27)
    [(x25, 28); (x26, 29); (x27, 30); (x28, 31); (x29, 32); (x30, 33)];
  mkLR [(51, 1, [x0; x1; x2; x3; x4; x5; x6])]
    [(x12, 34)] [] None
    [];
  mkLR [(3, 1, [x0; x1; x2; x3; x4; x5; x6])]
    [] [] (Some 3)
    [];
  mkLR [(1, 2, [x0; x1; x2; x3; x4; x5; x6])]
    [] [] (Some 1)
    [];
  mkLR [(4, 1, [x0; x1; x2; x3; x4; x5; x6])]
    [] [] (Some 4)
    [];
  mkLR [(2, 1, [x0; x1; x2; x3; x4; x5; x6])]
    [] [] (Some 2)
    [];
  mkLR [(47, 2, [x0; x1; x2; x3; x4; x5; x6])]
    [(x31, 35)] [] None
    [];
  mkLR [(30, 0, [x13]); (49, 2, [x0; x1; x2; x3; x4; x5; x6])]
    [(x32, 36)] [] None
    [(x33, 37)];
  mkLR [(52, 2, [x0; x1; x2; x3; x4; x5; x6])]
    [(x32, 38)] [] None
    [];
  mkLR [(35, 0, [x13]); (50, 2, [x0; x1; x2; x3; x4; x5; x6])]
    [(x32, 39)] [] None
    [(x34, 40)];
  mkLR [(26, 1, [x35; x14; x12])]
    [] [] (Some 26)
    [];
  mkLR [(22, 1, [x35; x14; x12])]
    [] [] (Some 22)
    [];
  mkLR [(20, 1, [x35; x14; x12])]
    [] [] (Some 20)
    [];
  mkLR [(29, 1, [x35; x14; x12]); (30, 0, [x35; x14; x12])]
    [(x32, 36)] [] None
    [(x33, 41)];
  mkLR [(19, 1, [x35; x14; x12])]
    [] [] (Some 19)
    [];
  mkLR [(8, 1, [x35; x13]); (9, 1, [x35; x13])]
    [(x12, 42)] [] None
    [];
  mkLR [(21, 1, [x35; x14; x12])]
    [] [] (Some 21)
    [];
  mkLR [(10, 1, [x35; x13])]
    [(x12, 43)] [] None
    [];
  mkLR [(34, 1, [x35; x14; x12]); (35, 0, [x35; x14; x12])]
    [(x32, 39)] [] None
    [(x34, 44)];
  mkLR [(38, 1, [x35; x14; x12]); (39, 0, [x35; x14; x12])]
    [(x36, 45)] [] None
    [(x37, 46)];
  mkLR [(28, 1, [x15; x16])]
    [] [] (Some 28)
    [];
  mkLR [(12, 1, [x35; x13])]
    [] [] (Some 12)
    [];
  mkLR [(48, 2, [x0; x1; x2; x3; x4; x5; x6])]
    [(x13, 47)] [] None
    [];
  mkLR [(23, 1, [x35; x14; x12])]
    [] [] (Some 23)
    [];
  mkLR [(17, 1, [x35; x14; x12]); (18, 1, [x35; x14; x12])]
    [(x15, 48); (x16, 49)] [] None
    [];
  mkLR [(24, 1, [x35; x14; x12])]
    [] [] (Some 24)
    [];
  mkLR [(5, 1, [x35; x13]); (6, 1, [x35; x13]); (7, 1, [x35; x13]); (11, 1, [x35; x13])]
    [(x14, 50); (x12, 51)] [] None
    [];
  mkLR [(25, 1, [x35; x14; x12])]
    [] [] (Some 25)
    [];
  mkLR [(39, 0, [x13]); (51, 2, [x0; x1; x2; x3; x4; x5; x6])]
    [(x36, 45)] [] None
    [(x37, 52)];
  mkLR [(47, 3, [x0; x1; x2; x3; x4; x5; x6])]
    [(x38, 53)] [] None
    [];
  mkLR [(30, 1, [x35; x14; x13; x12]); (31, 0, [x39; x40]); (32, 0, [x39; x40]); (33, 0, [x39; x40])]
    [(x12, 54)] [] None
    [(x41, 55); (x42, 56)];
  mkLR [(49, 3, [x0; x1; x2; x3; x4; x5; x6])]
    [(x13, 57)] [] None
    [];
  mkLR [(52, 3, [x0; x1; x2; x3; x4; x5; x6]); (53, 0, [x40; x43]); (54, 0, [x40; x43])]
    [] [] (Some 53)
    [(x44, 58)];
  mkLR [(35, 1, [x35; x14; x13; x12]); (36, 0, [x40; x12; x17; x18; x2; x19; x15; x16; x20; x21; x22; x4; x6; x23; x24]); (37, 0, [x40; x12; x17; x18; x2; x19; x15; x16; x20; x21; x22; x4; x6; x23; x24])]
    [] [] (Some 36)
    [(x45, 59)];
  mkLR [(50, 3, [x0; x1; x2; x3; x4; x5; x6])]
    [(x13, 60)] [] None
    [];
  mkLR [(29, 2, [x35; x14; x12])]
    [] [] (Some 29)
    [];
  mkLR [(8, 2, [x35; x13]); (9, 2, [x35; x13]); (13, 0, [x35; x13]); (14, 0, [x35; x13])]
    [(x46, 61); (x47, 62)] [] None
    [(x48, 63)];
  mkLR [(10, 2, [x35; x13]); (13, 0, [x35; x13]); (14, 0, [x35; x13])]
    [(x46, 61)] [] None
    [(x48, 64)];
  mkLR [(34, 2, [x35; x14; x12])]
    [] [] (Some 34)
    [];
  mkLR [(39, 1, [x35; x14; x13; x12])]
    [(x49, 65)] [] None
    [];
  mkLR [(38, 2, [x35; x14; x12])]
    [] [] (Some 38)
    [];
  mkLR [(48, 3, [x0; x1; x2; x3; x4; x5; x6])]
    [] [] (Some 48)
    [];
  mkLR [(18, 2, [x35; x14; x12])]
    [] [] (Some 18)
    [];
  mkLR [(17, 2, [x35; x14; x12])]
    [] [] (Some 17)
    [];
  mkLR [(11, 2, [x35; x13])]
    [(x12, 66)] [] None
    [];
  mkLR [(5, 2, [x35; x13]); (6, 2, [x35; x13]); (7, 2, [x35; x13]); (13, 0, [x35; x13]); (14, 0, [x35; x13])]
    [(x46, 61); (x47, 67)] [] (Some 5)
    [(x48, 68)];
  mkLR [(51, 3, [x0; x1; x2; x3; x4; x5; x6])]
    [(x13, 69)] [] None
    [];
  mkLR [(47, 4, [x0; x1; x2; x3; x4; x5; x6])]
    [(x13, 70)] [] None
    [];
  mkLR [(33, 1, [x39; x40])]
    [(x31, 71)] [] None
    [];
  mkLR [(31, 1, [x39; x40])]
    [] [] (Some 31)
    [];
  mkLR [(30, 2, [x35; x14; x13; x12]); (32, 1, [x39; x40])]
    [(x39, 72); (x40, 73)] [] None
    [];
  mkLR [(49, 4, [x0; x1; x2; x3; x4; x5; x6])]
    [] [] (Some 49)
    [];
  mkLR [(52, 4, [x0; x1; x2; x3; x4; x5; x6]); (54, 1, [x40; x43]); (55, 0, [x40; x43])]
    [(x40, 74); (x43, 75)] [] None
    [(x50, 76)];
  mkLR [(5, 0, [x13]); (6, 0, [x13]); (7, 0, [x13]); (8, 0, [x13]); (9, 0, [x13]); (10, 0, [x13]); (11, 0, [x13]); (12, 0, [x13]); (17, 0, [x14; x12]); (18, 0, [x14; x12]); (19, 0, [x14; x12]); (20, 0, [x14; x12]); (21, 0, [x14; x12]); (22, 0, [x14; x12]); (23, 0, [x14; x12]); (24, 0, [x14; x12]); (25, 0, [x14; x12]); (26, 0, [x14; x12]); (27, 0, [x15; x16]); (28, 0, [x15; x16]); (29, 0, [x14; x12]); (34, 0, [x14; x12]); (35, 2, [x35; x14; x13; x12]); (37, 1, [x40; x12; x17; x18; x2; x19; x15; x16; x20; x21; x22; x4; x6; x23; x24]); (38, 0, [x14; x12])]
    [(x40, 77); (x12, 16); (x17, 17); (x18, 18); (x2, 19); (x19, 20); (x20, 21); (x21, 22); (x22, 23); (x4, 24); (x6, 25); (x23, 26); (x24, 27)] [] (Some 27)
    [(x25, 78); (x26, 29); (x27, 30); (x28, 31); (x29, 32); (x30, 33)];
  mkLR [(50, 4, [x0; x1; x2; x3; x4; x5; x6])]
    [] [] (Some 50)
    [];
  mkLR [(13, 1, [x35; x13]); (14, 1, [x35; x13]); (15, 0, [x51]); (16, 0, [x51])]
    [(x51, 79); (x38, 80); (x12, 81)] [] None
    [(x52, 82)];
  mkLR [(8, 3, [x35; x13]); (15, 0, [x53]); (16, 0, [x53])]
    [(x38, 80); (x12, 81)] [] None
    [(x52, 83)];
  mkLR [(9, 3, [x35; x13])]
    [] [] (Some 9)
    [];
  mkLR [(10, 3, [x35; x13])]
    [] [] (Some 10)
    [];
  mkLR [(5, 0, [x35]); (6, 0, [x35]); (7, 0, [x35]); (8, 0, [x35]); (9, 0, [x35]); (10, 0, [x35]); (11, 0, [x35]); (12, 0, [x35]); (17, 0, [x14; x12]); (18, 0, [x14; x12]); (19, 0, [x14; x12]); (20, 0, [x14; x12]); (21, 0, [x14; x12]); (22, 0, [x14; x12]); (23, 0, [x14; x12]); (24, 0, [x14; x12]); (25, 0, [x14; x12]); (26, 0, [x14; x12]); (27, 0, [x15; x16]); (28, 0, [x15; x16]); (29, 0, [x14; x12]); (34, 0, [x14; x12]); (38, 0, [x14; x12]); (39, 2, [x35; x14; x13; x12])]
    [(x12, 16); (x17, 17); (x18, 18); (x2, 19); (x19, 20); (x20, 21); (x21, 22); (x22, 23); (x4, 24); (x6, 25); (x23, 26); (x24, 27)] [] (Some 27)
    [(x25, 84); (x26, 29); (x27, 30); (x28, 31); (x29, 32); (x30, 33)];
  mkLR [(11, 3, [x35; x13])]
    [] [] (Some 11)
    [];
  mkLR [(6, 3, [x35; x13]); (15, 0, [x53]); (16, 0, [x53])]
    [(x38, 80); (x12, 81)] [] None
    [(x52, 85)];
  mkLR [(7, 3, [x35; x13])]
    [] [] (Some 7)
    [];
  mkLR [(51, 4, [x0; x1; x2; x3; x4; x5; x6])]
    [] [] (Some 51)
    [];
  mkLR [(47, 5, [x0; x1; x2; x3; x4; x5; x6])]
    [] [] (Some 47)
    [];
  mkLR [(15, 0, [x39; x40]); (16, 0, [x39; x40]); (33, 2, [x39; x40])]
    [(x38, 80); (x12, 81)] [] None
    [(x52, 86)];
  mkLR [(32, 2, [x39; x40]); (33, 0, [x39; x40])]
    [(x12, 54)] [] None
    [(x41, 87)];
  mkLR [(30, 3, [x35; x14; x13; x12])]
    [] [] (Some 30)
    [];
  mkLR [(52, 5, [x0; x1; x2; x3; x4; x5; x6])]
    [(x31, 88)] [] None
    [];
  mkLR [(55, 1, [x40; x43])]
    [(x12, 89)] [] None
    [];
  mkLR [(54, 2, [x40; x43])]
    [] [] (Some 54)
    [];
  mkLR [(35, 3, [x35; x14; x13; x12])]
    [] [] (Some 35)
    [];
  mkLR [(37, 2, [x40; x12; x17; x18; x2; x19; x15; x16; x20; x21; x22; x4; x6; x23; x24])]
    [(x13, 90)] [] None
    [];
  mkLR [(13, 2, [x35; x13])]
    [] [] (Some 13)
    [];
  mkLR [(15, 1, [x39; x54; x51; x53; x40])]
    [] [] (Some 15)
    [];
  mkLR [(16, 1, [x39; x54; x51; x53; x40])]
    [] [] (Some 16)
    [];
  mkLR [(14, 2, [x35; x13])]
    [(x51, 91)] [] None
    [];
  mkLR [(8, 4, [x35; x13])]
    [(x53, 92)] [] None
    [];
  mkLR [(39, 3, [x35; x14; x13; x12])]
    [(x35, 93)] [] None
    [];
  mkLR [(6, 4, [x35; x13])]
    [(x53, 94)] [] None
    [];
  mkLR [(33, 3, [x39; x40])]
    [] [] (Some 33)
    [];
  mkLR [(32, 3, [x39; x40])]
    [] [] (Some 32)
    [];
  mkLR [(52, 6, [x0; x1; x2; x3; x4; x5; x6])]
    [(x38, 95)] [] None
    [];
  mkLR [(55, 2, [x40; x43])]
    [(x32, 96)] [] None
    [];
  mkLR [(37, 3, [x40; x12; x17; x18; x2; x19; x15; x16; x20; x21; x22; x4; x6; x23; x24])]
    [] [] (Some 37)
    [];
  mkLR [(14, 3, [x35; x13])]
    [] [] (Some 14)
    [];
  mkLR [(8, 5, [x35; x13])]
    [] [] (Some 8)
    [];
  mkLR [(39, 4, [x35; x14; x13; x12])]
    [(x32, 97)] [] None
    [];
  mkLR [(6, 5, [x35; x13])]
    [] [] (Some 6)
    [];
  mkLR [(52, 7, [x0; x1; x2; x3; x4; x5; x6])]
    [(x13, 98)] [] None
    [];
  mkLR [(55, 3, [x40; x43]); (56, 0, [x40; x12; x17; x18; x2; x19; x15; x16; x21; x4; x6; x23; x24]); (57, 0, [x40; x12; x17; x18; x2; x19; x15; x16; x21; x4; x6; x23; x24])]
    [] [] (Some 56)
    [(x55, 99)];
  mkLR [(39, 5, [x35; x14; x13; x12]); (40, 0, [x40]); (41, 0, [x40]); (42, 0, [x40; x56; x57]); (43, 0, [x40; x56; x57])]
    [] [] (Some 42)
    [(x58, 100); (x59, 101)];
  mkLR [(52, 8, [x0; x1; x2; x3; x4; x5; x6])]
    [] [] (Some 52)
    [];
  mkLR [(17, 0, [x12]); (18, 0, [x12]); (19, 0, [x12]); (20, 0, [x12]); (21, 0, [x12]); (22, 0, [x12]); (23, 0, [x12]); (24, 0, [x12]); (25, 0, [x12]); (26, 0, [x12]); (27, 0, [x15; x16]); (28, 0, [x15; x16]); (29, 0, [x12]); (34, 0, [x12]); (38, 0, [x12]); (55, 4, [x40; x43]); (57, 1, [x40; x12; x17; x18; x2; x19; x15; x16; x21; x4; x6; x23; x24]); (58, 0, [x40; x12; x17; x18; x2; x19; x15; x16; x21; x4; x6; x23; x24]); (59, 0, [x12]); (60, 0, [x12])]
    [(x40, 102); (x12, 16); (x17, 17); (x18, 18); (x2, 19); (x19, 20); (x21, 22); (x4, 24); (x6, 25); (x23, 26); (x24, 103)] [] (Some 27)
    [(x26, 29); (x27, 30); (x60, 104); (x28, 31); (x29, 105); (x61, 106); (x30, 33)];
  mkLR [(40, 1, [x40]); (41, 1, [x40]); (43, 1, [x40; x56; x57]); (44, 0, [x40; x56; x57]); (45, 0, [x12; x17; x56; x18; x2; x19; x15; x16; x20; x21; x22; x4; x6; x23; x24]); (46, 0, [x12; x17; x56; x18; x2; x19; x15; x16; x20; x21; x22; x4; x6; x23; x24])]
    [(x56, 107); (x57, 108)] [] (Some 40)
    [(x62, 109); (x63, 110)];
  mkLR [(39, 6, [x35; x14; x13; x12])]
    [(x40, 111)] [] None
    [];
  mkLR [(55, 5, [x40; x43])]
    [(x31, 112)] [] None
    [];
  mkLR [(59, 1, [x35; x12])]
    [] [] (Some 59)
    [];
  mkLR [(57, 2, [x40; x12; x17; x18; x2; x19; x15; x16; x21; x4; x6; x23; x24])]
    [] [] (Some 57)
    [];
  mkLR [(60, 1, [x35; x12])]
    [] [] (Some 60)
    [];
  mkLR [(58, 1, [x40; x12; x17; x18; x2; x19; x15; x16; x21; x4; x6; x23; x24])]
    [(x12, 113)] [] None
    [];
  mkLR [(15, 0, [x54]); (16, 0, [x54]); (45, 1, [x12; x17; x56; x18; x2; x19; x15; x16; x20; x21; x22; x4; x6; x23; x24])]
    [(x38, 80); (x12, 81)] [] None
    [(x52, 114)];
  mkLR [(41, 2, [x40])]
    [(x54, 115)] [] None
    [];
  mkLR [(5, 0, [x13]); (6, 0, [x13]); (7, 0, [x13]); (8, 0, [x13]); (9, 0, [x13]); (10, 0, [x13]); (11, 0, [x13]); (12, 0, [x13]); (17, 0, [x14; x12]); (18, 0, [x14; x12]); (19, 0, [x14; x12]); (20, 0, [x14; x12]); (21, 0, [x14; x12]); (22, 0, [x14; x12]); (23, 0, [x14; x12]); (24, 0, [x14; x12]); (25, 0, [x14; x12]); (26, 0, [x14; x12]); (27, 0, [x15; x16]); (28, 0, [x15; x16]); (29, 0, [x14; x12]); (34, 0, [x14; x12]); (38, 0, [x14; x12]); (44, 1, [x40; x56; x57]); (46, 1, [x12; x17; x56; x18; x2; x19; x15; x16; x20; x21; x22; x4; x6; x23; x24])]
    [(x12, 16); (x17, 17); (x56, 116); (x18, 18); (x2, 19); (x19, 20); (x20, 21); (x21, 22); (x22, 23); (x4, 24); (x6, 25); (x23, 26); (x24, 27)] [] (Some 27)
    [(x25, 117); (x26, 29); (x27, 30); (x28, 31); (x29, 32); (x30, 33)];
  mkLR [(43, 2, [x40; x56; x57])]
    [] [] (Some 43)
    [];
  mkLR [(39, 7, [x35; x14; x13; x12])]
    [] [] (Some 39)
    [];
  mkLR [(55, 6, [x40; x43])]
    [(x38, 118)] [] None
    [];
  mkLR [(58, 2, [x40; x12; x17; x18; x2; x19; x15; x16; x21; x4; x6; x23; x24])]
    [(x49, 119)] [] None
    [];
  mkLR [(45, 2, [x12; x17; x56; x18; x2; x19; x15; x16; x20; x21; x22; x4; x6; x23; x24])]
    [(x54, 120)] [] None
    [];
  mkLR [(5, 0, [x13]); (6, 0, [x13]); (7, 0, [x13]); (8, 0, [x13]); (9, 0, [x13]); (10, 0, [x13]); (11, 0, [x13]); (12, 0, [x13]); (17, 0, [x14; x12]); (18, 0, [x14; x12]); (19, 0, [x14; x12]); (20, 0, [x14; x12]); (21, 0, [x14; x12]); (22, 0, [x14; x12]); (23, 0, [x14; x12]); (24, 0, [x14; x12]); (25, 0, [x14; x12]); (26, 0, [x14; x12]); (27, 0, [x15; x16]); (28, 0, [x15; x16]); (29, 0, [x14; x12]); (34, 0, [x14; x12]); (38, 0, [x14; x12]); (41, 3, [x40])]
    [(x12, 16); (x17, 17); (x18, 18); (x2, 19); (x19, 20); (x20, 21); (x21, 22); (x22, 23); (x4, 24); (x6, 25); (x23, 26); (x24, 27)] [] (Some 27)
    [(x25, 121); (x26, 29); (x27, 30); (x28, 31); (x29, 32); (x30, 33)];
  mkLR [(15, 0, [x54]); (16, 0, [x54]); (46, 2, [x12; x17; x56; x18; x2; x19; x15; x16; x20; x21; x22; x4; x6; x23; x24])]
    [(x38, 80); (x12, 81)] [] None
    [(x52, 122)];
  mkLR [(44, 2, [x40; x56; x57])]
    [(x13, 123)] [] None
    [];
  mkLR [(55, 7, [x40; x43])]
    [(x13, 124)] [] None
    [];
  mkLR [(17, 0, [x35]); (18, 0, [x35]); (19, 0, [x35]); (20, 0, [x35]); (21, 0, [x35]); (22, 0, [x35]); (23, 0, [x35]); (24, 0, [x35]); (25, 0, [x35]); (26, 0, [x35]); (27, 0, [x15; x16]); (28, 0, [x15; x16]); (29, 0, [x35]); (34, 0, [x35]); (38, 0, [x35]); (58, 3, [x40; x12; x17; x18; x2; x19; x15; x16; x21; x4; x6; x23; x24]); (59, 0, [x35]); (60, 0, [x35])]
    [(x12, 16); (x17, 17); (x18, 18); (x2, 19); (x19, 20); (x21, 22); (x4, 24); (x6, 25); (x23, 26); (x24, 103)] [] (Some 27)
    [(x26, 29); (x27, 30); (x28, 31); (x29, 105); (x61, 125); (x30, 33)];
  mkLR [(45, 3, [x12; x17; x56; x18; x2; x19; x15; x16; x20; x21; x22; x4; x6; x23; x24])]
    [] [] (Some 45)
    [];
  mkLR [(41, 4, [x40])]
    [(x13, 126)] [] None
    [];
  mkLR [(46, 3, [x12; x17; x56; x18; x2; x19; x15; x16; x20; x21; x22; x4; x6; x23; x24])]
    [(x54, 127)] [] None
    [];
  mkLR [(44, 3, [x40; x56; x57])]
    [] [] (Some 44)
    [];
  mkLR [(55, 8, [x40; x43])]
    [] [] (Some 55)
    [];
  mkLR [(58, 4, [x40; x12; x17; x18; x2; x19; x15; x16; x21; x4; x6; x23; x24])]
    [(x35, 128)] [] None
    [];
  mkLR [(41, 5, [x40])]
    [] [] (Some 41)
    [];
  mkLR [(46, 4, [x12; x17; x56; x18; x2; x19; x15; x16; x20; x21; x22; x4; x6; x23; x24])]
    [] [] (Some 46)
    [];
  mkLR [(58, 5, [x40; x12; x17; x18; x2; x19; x15; x16; x21; x4; x6; x23; x24])]
    [(x31, 129)] [] None
    [];
  mkLR [(58, 6, [x40; x12; x17; x18; x2; x19; x15; x16; x21; x4; x6; x23; x24])]
    [(x38, 130)] [] None
    [];
  mkLR [(58, 7, [x40; x12; x17; x18; x2; x19; x15; x16; x21; x4; x6; x23; x24])]
    [(x13, 131)] [] None
    [];
  mkLR [(58, 8, [x40; x12; x17; x18; x2; x19; x15; x16; x21; x4; x6; x23; x24])]
    [] [] (Some 58)
    []]
  [x64; x27; x55; x44; x7; x45; x58; x59]
  [(x64, [x1; x2; x3; x4; x5; x6]); (x62, [x56]); (x8, [x1]); (x25, [x12; x17; x18; x2; x19; x15; x16; x20; x21; x22; x4; x6; x23; x24]); (x9, [x1; x2; x3; x4; x5; x6]); (x33, [x32]); (x41, [x12]); (x42, [x12]); (x26, [x2]); (x27, [x23]); (x60, [x12; x17; x18; x2; x19; x15; x16; x21; x4; x6; x23; x24]); (x55, [x12; x17; x18; x2; x19; x15; x16; x21; x4; x6; x23; x24]); (x10, [x3]); (x50, [x43]); (x44, [x43]); (x7, [x1; x2; x3; x4; x5; x6]); (x34, [x32]); (x45, [x12; x17; x18; x2; x19; x15; x16; x20; x21; x22; x4; x6; x23; x24]); (x28, [x4]); (x11, [x2; x4; x5; x6]); (x29, [x12; x17; x18; x2; x19; x15; x16; x21; x4; x6; x23]); (x61, [x12; x17; x18; x2; x19; x15; x16; x21; x4; x6; x23; x24]); (x37, [x36]); (x63, [x56]); (x58, [x56]); (x59, [x56; x57]); (x30, [x6]); (x52, [x38; x12]); (x48, [x46])]
  [2; 0; 0; 0; 0; 0; 2; 0; 1; 0; 1; 1; 0; 0; 0; 0; 2; 2; 2; 0; 2; 0; 2; 0; 0; 0; 1; 1; 0; 2; 0; 2; 0; 2; 0; 0; 0; 0; 2; 4; 0; 2; 0; 0; 2; 0; 2; 0; 1; 1; 0; 0; 0; 0; 0; 1; 0; 0; 0; 2; 0; 0; 0; 0; 0; 2; 0; 0; 0; 0; 0; 0; 0; 1; 0; 0; 0; 1; 0; 0; 1; 1; 0; 0; 0; 0; 0; 0; 0; 0; 1; 0; 0; 0; 0; 0; 4; 3; 0; 2; 1; 0; 0; 1; 2; 1; 0; 0; 0; 2; 1; 0; 0; 0; 0; 2; 0; 0; 0; 2; 1; 0; 0; 0; 0; 0; 0; 0; 0; 0; 0; 0].
